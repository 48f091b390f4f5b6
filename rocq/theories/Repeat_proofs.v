From Verif Require Import Base Problem_model Merged_model Classify_model Preprocess_model Validate_model Params_model
  Rows_model Solver_model EndToEnd_model Rewrite_spec Repeat_spec Merged_model.
Open Scope Z_scope.

(** ** The class *)
Lemma coef_inl_one l : forall r, coef_elems l 1 = inl r -> r = 1.
Proof.
  induction l as [|e l IH]; cbn [coef_elems]; intros r H; [congruence|]. rewrite andb_false_r in H. destruct (_ || _); [discriminate|]. now apply IH.
Qed.
Lemma coef_again l : forall r r', (r = 0 \/ r = 1) -> coef_elems l r = inl r' ->
  (r' = 0 \/ r' = 1) /\ (r = 1 -> r' = 1) /\ forall s, (s = 0 \/ s = 1) -> (r' = 1 -> s = 1) -> coef_elems l s = inl s.
Proof.
  induction l as [|e l IH]; intros r r' Hr H; cbn [coef_elems] in *.
  - injection H as <-. repeat split; auto.
  - destruct (Z.eqb_spec (f_factor e) (-1)) as [E|E]; cbn [andb] in H |- *.
    + destruct Hr as [-> | ->]; cbn [Z.eqb] in H.
      * pose proof (coef_inl_one _ _ H) as ->. destruct (IH 1 1 (or_intror eq_refl) H) as (_ & _ & K).
        split; [now right|]. split; [discriminate|]. intros s Hs Ks. rewrite (Ks eq_refl). cbn [Z.eqb]. rewrite E. cbn.
        exact H.
      * rewrite E in H. cbn in H. pose proof (coef_inl_one _ _ H) as ->. split; [now right|]. split; [reflexivity|].
        intros s Hs Ks. rewrite (Ks eq_refl). cbn [Z.eqb]. rewrite E. cbn. exact H.
    + destruct (_ || _); [discriminate|]. apply IH; assumption.
Qed.
Lemma coef_csts_app l1 : forall l2 r, (r = 0 \/ r = 1) ->
  coef_csts (l1 ++ l2) r = coef_csts l2 (coef_csts l1 r) /\ (coef_csts l1 r = 0 \/ coef_csts l1 r = 1) /\ (r = 1 -> coef_csts l1 r = 1) \/
  (forall l2, coef_csts (l1 ++ l2) r = coef_csts l1 r).
Proof.
  induction l1 as [|c l1 IH]; intros l2 r Hr; cbn [app coef_csts]; [left; auto|].
  destruct (coef_elems (c_elements c) r) as [r1|r1] eqn:E; [|right; reflexivity].
  destruct (coef_again _ _ _ Hr E) as (H1 & H2 & _). destruct (IH l2 r1 H1) as [(A & B & C)|A]; [left|right; exact A].
  split; [exact A|]. split; [exact B|]. auto.
Qed.
Lemma coef_one_more op l l' : one_more (looser op) l l' -> coefficient_type_of l' = coefficient_type_of l.
Proof.
  intros (l1 & c & l2 & c' & l3 & -> & -> & E & _). unfold coefficient_type_of.
  destruct (coef_csts_app l1 (c :: l2 ++ c' :: l3) 0 (or_introl eq_refl)) as [(A & B & _)|A]; [|now rewrite !A].
  destruct (coef_csts_app l1 (c :: l2 ++ l3) 0 (or_introl eq_refl)) as [(A' & _ & _)|A']; [|now rewrite !A'].
  rewrite A, A'. set (r := coef_csts l1 0) in *. cbn [coef_csts]. destruct (coef_elems (c_elements c) r) as [r1|r1] eqn:Ec; [|reflexivity].
  destruct (coef_again _ _ _ B Ec) as (H1 & _ & H3).
  destruct (coef_csts_app l2 (c' :: l3) r1 H1) as [(D & E1 & E2)|D]; [|now rewrite !D].
  destruct (coef_csts_app l2 l3 r1 H1) as [(D' & _ & _)|D']; [|now rewrite !D'].
  rewrite D, D'. cbn [coef_csts]. rewrite E. rewrite H3; [reflexivity|exact E1|exact E2].
Qed.
Lemma nil_one_more P l l' : one_more P l l' -> is_nil l' = is_nil l.
Proof. intros (l1 & c & l2 & c' & l3 & -> & -> & _). destruct l1; reflexivity. Qed.

Definition related (P : operator_type -> constraint -> constraint -> Prop) (op : operator_type) (pb pb' : problem) : Prop :=
  p_objective pb' = p_objective pb /\ p_vars pb' = p_vars pb /\ p_affected pb' = p_affected pb /\ p_type pb' = p_type pb /\
  p_problem_type pb' = p_problem_type pb /\
  match op with
  | op_equal => one_more (P op) (p_equal pb) (p_equal pb') /\ p_greater pb' = p_greater pb /\ p_less pb' = p_less pb
  | op_greater => one_more (P op) (p_greater pb) (p_greater pb') /\ p_equal pb' = p_equal pb /\ p_less pb' = p_less pb
  | op_less => one_more (P op) (p_less pb) (p_less pb') /\ p_equal pb' = p_equal pb /\ p_greater pb' = p_greater pb
  end.

Lemma which_related op pb pb' : related looser op pb pb' -> which_problem_type pb' = which_problem_type pb.
Proof.
  intros (_ & _ & _ & _ & _ & H). unfold which_problem_type, coefficient_type.
  destruct op; destruct H as (A & B & C); rewrite B, C, (coef_one_more _ _ _ A), ?(nil_one_more _ _ _ A); reflexivity.
Qed.

(** ** Merging *)
Lemma cache_find_emplace c k i : cache_find c k = None -> cache_find (cache_emplace c k i) k = Some i.
Proof.
  unfold cache_emplace. induction c as [|[k' j] c IH]; cbn [cache_find app]; [intros _; now destruct (felems_eqb_spec k k)|].
  destruct (felems_eqb k k'); [discriminate|exact IH].
Qed.
Lemma cache_find_kept c k k' i j : cache_find c k = Some i -> cache_find (cache_emplace c k' j) k = Some i.
Proof.
  unfold cache_emplace. induction c as [|[k0 j0] c IH]; cbn [cache_find app]; [discriminate|]. destruct (felems_eqb k k0); auto.
Qed.

(** What is known of the row of [k] once the constraint [op k v] was merged. *)
Definition tight (op : operator_type) (v : Z) (m : merged) : Prop :=
  match op with op_equal => m_min m = v /\ m_max m = v | op_less => m_max m <= v | op_greater => v <= m_min m end.
Definition known (op : operator_type) (k : list felem) (v : Z) (s : mstate) : Prop :=
  exists i m, cache_find (fst s) k = Some i /\ nth_error (snd s) i = Some m /\ tight op v m.
Definition fill_of (op : operator_type) : mstate -> constraint -> outcome mstate :=
  match op with op_equal => fill_equal | op_less => fill_less | op_greater => fill_greater end.

Lemma nth_snoc {A} (l : list A) a : nth_error (l ++ [a]) (length l) = Some a.
Proof. rewrite nth_error_app2 by lia. now rewrite Nat.sub_diag. Qed.
Lemma nth_some_lt {A} (l : list A) i a : nth_error l i = Some a -> (i < length l)%nat.
Proof. intros H. apply nth_error_Some. congruence. Qed.
Lemma nth_grow {A} (l l2 : list A) i a : nth_error l i = Some a -> nth_error (l ++ l2) i = Some a.
Proof. intros H. rewrite nth_error_app1; [exact H|]. eapply nth_some_lt; eauto. Qed.
Lemma upd_here {A} (l l' : list A) i a : list_upd l i a = Some l' -> nth_error l' i = Some a.
Proof. intros H. rewrite (list_upd_nth _ _ _ _ i H). now rewrite Nat.eqb_refl. Qed.
Lemma upd_same {A} (l : list A) : forall i a, nth_error l i = Some a -> list_upd l i a = Some l.
Proof.
  induction l as [|h l IH]; intros [|i] a H; cbn in *; try discriminate; [now injection H as ->|]. now rewrite (IH _ _ H).
Qed.

Lemma known_first op s c s' : fill_of op s c = Ok s' -> known op (c_elements c) (c_value c) s'.
Proof.
  destruct s as [ca ret]. destruct op; cbn [fill_of]; unfold fill_equal, fill_less, fill_greater, known; intros H;
    destruct (cache_find ca (c_elements c)) as [i|] eqn:E;
    try (injection H as <-; cbn [fst snd]; eexists _, _; split; [apply cache_find_emplace; exact E|]; split; [apply nth_snoc|]; cbn; lia);
    destruct (nth_error ret i) as [m|] eqn:M; cbn [of_opt obind] in H; try discriminate.
  - destruct (_ && _); [|discriminate]. destruct (list_upd ret i _) as [ret'|] eqn:U; cbn [of_opt obind] in H; [|discriminate]. injection H as <-.
    cbn [fst snd]. eexists _, _. split; [exact E|]. split; [eapply upd_here; eauto|]. cbn. lia.
  - destruct (list_upd ret i _) as [ret'|] eqn:U; cbn [of_opt obind] in H; [|discriminate]. injection H as <-.
    cbn [fst snd]. eexists _, _. split; [exact E|]. split; [eapply upd_here; eauto|]. cbn. lia.
  - destruct (list_upd ret i _) as [ret'|] eqn:U; cbn [of_opt obind] in H; [|discriminate]. injection H as <-.
    cbn [fst snd]. eexists _, _. split; [exact E|]. split; [eapply upd_here; eauto|]. cbn. lia.
Qed.
Lemma known_kept op k v s c s' : known op k v s -> fill_of op s c = Ok s' -> known op k v s'.
Proof.
  intros (i & m & F & M & T) H. destruct s as [ca ret]. cbn [fst snd] in F, M.
  destruct op; cbn [fill_of] in H; unfold fill_equal, fill_less, fill_greater in H;
    destruct (cache_find ca (c_elements c)) as [j|] eqn:E;
    try (injection H as <-; exists i, m; cbn [fst snd]; split; [now apply cache_find_kept|]; split; [now apply nth_grow|exact T]);
    destruct (nth_error ret j) as [mj|] eqn:Mj; cbn [of_opt obind] in H; try discriminate.
  - destruct ((m_min mj <=? c_value c) && (c_value c <=? m_max mj)) eqn:B; [|discriminate].
    destruct (list_upd ret j _) as [ret'|] eqn:U; cbn [of_opt obind] in H; [|discriminate]. injection H as <-.
    unfold known. cbn [fst snd]. rewrite F. pose proof (list_upd_nth _ _ _ _ i U) as N. destruct (Nat.eqb_spec i j) as [->|D].
    + rewrite M in Mj. injection Mj as <-. eexists _, _. split; [reflexivity|]. split; [exact N|]. cbn in *. lia.
    + eexists _, _. split; [reflexivity|]. split; [rewrite N; exact M|exact T].
  - destruct (list_upd ret j _) as [ret'|] eqn:U; cbn [of_opt obind] in H; [|discriminate]. injection H as <-.
    unfold known. cbn [fst snd]. rewrite F. pose proof (list_upd_nth _ _ _ _ i U) as N. destruct (Nat.eqb_spec i j) as [->|D].
    + rewrite M in Mj. injection Mj as <-. eexists _, _. split; [reflexivity|]. split; [exact N|]. cbn in *. lia.
    + eexists _, _. split; [reflexivity|]. split; [rewrite N; exact M|exact T].
  - destruct (list_upd ret j _) as [ret'|] eqn:U; cbn [of_opt obind] in H; [|discriminate]. injection H as <-.
    unfold known. cbn [fst snd]. rewrite F. pose proof (list_upd_nth _ _ _ _ i U) as N. destruct (Nat.eqb_spec i j) as [->|D].
    + rewrite M in Mj. injection Mj as <-. eexists _, _. split; [reflexivity|]. split; [exact N|]. cbn in *. lia.
    + eexists _, _. split; [reflexivity|]. split; [rewrite N; exact M|exact T].
Qed.
Lemma merged_eta m : mk_merged (m_elements m) (m_min m) (m_max m) (m_id m) = m.
Proof. now destruct m. Qed.
Lemma known_again op c c' s : known op (c_elements c) (c_value c) s -> looser op c c' -> fill_of op s c' = Ok s.
Proof.
  intros (i & m & F & M & T) (E & V). destruct s as [ca ret]. cbn [fst snd] in F, M.
  destruct op; cbn [fill_of]; unfold fill_equal, fill_less, fill_greater; rewrite E, F, M; cbn [of_opt obind]; cbn [tight] in T.
  - destruct T as [T1 T2]. rewrite T1, T2, V, Z.leb_refl. cbn [andb].
    replace (mk_merged (m_elements m) (c_value c) (c_value c) (m_id m)) with m; [now rewrite (upd_same _ _ _ M)|].
    rewrite <- T1 at 1. rewrite <- T2. symmetry. apply merged_eta.
  - rewrite Z.max_l, merged_eta, (upd_same _ _ _ M) by lia. reflexivity.
  - rewrite Z.min_l, merged_eta, (upd_same _ _ _ M) by lia. reflexivity.
Qed.
Lemma fill_list_app f l1 : forall l2 s, fill_list f s (l1 ++ l2) = obind (fill_list f s l1) (fun s => fill_list f s l2).
Proof. induction l1 as [|c l1 IH]; intros; cbn [app fill_list obind]; [reflexivity|]. destruct (f s c); cbn [obind]; auto. Qed.
Lemma known_list op k v l : forall s s', known op k v s -> fill_list (fill_of op) s l = Ok s' -> known op k v s'.
Proof.
  induction l as [|c l IH]; intros s s' K H; cbn [fill_list] in H; [now injection H as <-|].
  destruct (fill_of op s c) as [s1| |] eqn:E; cbn [obind] in H; try discriminate. eapply IH; [|exact H]. eapply known_kept; eauto.
Qed.
Lemma fill_one_more op l l' s : one_more (looser op) l l' -> fill_list (fill_of op) s l' = fill_list (fill_of op) s l.
Proof.
  intros (l1 & c & l2 & c' & l3 & -> & -> & L). rewrite !fill_list_app. destruct (fill_list (fill_of op) s l1) as [s1| |]; cbn [obind]; [|reflexivity|reflexivity].
  cbn [fill_list]. destruct (fill_of op s1 c) as [s2| |] eqn:E; cbn [obind]; [|reflexivity|reflexivity]. rewrite !fill_list_app.
  destruct (fill_list (fill_of op) s2 l2) as [s3| |] eqn:E2; cbn [obind]; [|reflexivity|reflexivity]. cbn [fill_list].
  rewrite (known_again op c c' s3); [reflexivity| |exact L]. eapply known_list; [|exact E2]. eapply known_first; eauto.
Qed.
Lemma fill_merged_related op pb pb' o s : related looser op pb pb' -> fill_merged o pb' s = fill_merged o pb s.
Proof.
  intros (_ & _ & _ & _ & _ & H). destruct op; destruct H as (A & B & C); destruct o; cbn [fill_merged]; rewrite ?B, ?C; try reflexivity;
    exact (fill_one_more _ _ _ s A).
Qed.
Lemma fill3_related op pb pb' o1 o2 o3 : related looser op pb pb' -> fill3 o1 o2 o3 pb' = fill3 o1 o2 o3 pb.
Proof.
  intros H. unfold fill3. rewrite (fill_merged_related _ _ _ o1 _ H). destruct (fill_merged o1 pb _); cbn [obind]; [|reflexivity|reflexivity].
  rewrite (fill_merged_related _ _ _ o2 _ H). destruct (fill_merged o2 pb _); cbn [obind]; [|reflexivity|reflexivity].
  now rewrite (fill_merged_related _ _ _ o3 _ H).
Qed.
Lemma make_merged_related std_sort ddiv po op pb pb' : related looser op pb pb' -> make_merged std_sort ddiv po pb' = make_merged std_sort ddiv po pb.
Proof.
  intros H. pose proof H as (Ho & Hv & _). unfold make_merged, make_special, make_ordered, make_unsorted. rewrite Ho, Hv.
  destruct po; rewrite (fill3_related _ _ _ _ _ _ H); reflexivity.
Qed.

(** ** Preprocessing: the loops over the constraints of one variable, one constraint at a time *)
Definition occ (v : nat) (l : list felem) : nat := length (filter (fun e => Nat.eqb (f_var e) v) l).
Fixpoint idxs (v : nat) (l : list constraint) (i : nat) : list nat :=
  match l with [] => [] | c :: l' => repeat i (occ v (c_elements c)) ++ idxs v l' (S i) end.

Lemma cache_elems_nth l : forall i cache cache' v, cache_elems l i cache = Some cache' ->
  length cache' = length cache /\ nth_error cache' v = option_map (fun k => k ++ repeat i (occ v l)) (nth_error cache v).
Proof.
  induction l as [|e l IH]; intros i cache cache' v H; cbn [cache_elems] in H.
  - injection H as <-. split; [reflexivity|]. destruct (nth_error cache v); cbn; [now rewrite app_nil_r|reflexivity].
  - destruct (list_modify cache (f_var e) _) as [c1|] eqn:E; cbn [bind] in H; [|discriminate]. destruct (IH _ _ _ v H) as [L N].
    split; [rewrite L; eapply list_modify_length; eauto|]. rewrite N, (list_modify_nth _ _ _ _ v E). unfold occ. cbn [filter].
    rewrite (Nat.eqb_sym (f_var e) v).
    destruct (Nat.eqb_spec v (f_var e)) as [->|D]; [|reflexivity]. destruct (nth_error cache (f_var e)) as [k|]; cbn; [|reflexivity].
    now rewrite <- app_assoc.
Qed.
Lemma cache_csts_nth l : forall i cache cache' v, cache_csts l i cache = Some cache' ->
  length cache' = length cache /\ nth_error cache' v = option_map (fun k => k ++ idxs v l i) (nth_error cache v).
Proof.
  induction l as [|c l IH]; intros i cache cache' v H; cbn [cache_csts] in H.
  - injection H as <-. split; [reflexivity|]. destruct (nth_error cache v); cbn; [now rewrite app_nil_r|reflexivity].
  - destruct (cache_elems (c_elements c) i cache) as [c1|] eqn:E; cbn [bind] in H; [|discriminate]. destruct (IH _ _ _ v H) as [L N].
    destruct (cache_elems_nth _ _ _ _ v E) as [L1 N1]. split; [congruence|]. rewrite N, N1. destruct (nth_error cache v); cbn; [|reflexivity].
    now rewrite <- app_assoc.
Qed.
Lemma make_cache_nth n l ca v : make_cache n l = Some ca ->
  length ca = n /\ nth_error ca v = if Nat.ltb v n then Some (idxs v l 0) else None.
Proof.
  intros H. destruct (cache_csts_nth _ _ _ _ v H) as [L N]. rewrite repeat_length in L. split; [exact L|]. rewrite N.
  rewrite nth_error_repeat. destruct (Nat.ltb v n); reflexivity.
Qed.
Lemma cache_elems_ok l : forall i cache, (exists c, cache_elems l i cache = Some c) <-> forallb (fun e => Nat.ltb (f_var e) (length cache)) l = true.
Proof.
  induction l as [|e l IH]; intros i cache; cbn [cache_elems forallb]; [split; eauto|].
  destruct (list_modify cache (f_var e) _) as [c1|] eqn:E; cbn [bind].
  - rewrite IH, (list_modify_length _ _ _ _ E). rewrite andb_true_iff. split; [intros K; split; [|exact K]|tauto]. apply Nat.ltb_lt.
    unfold list_modify in E. destruct (nth_error cache (f_var e)) eqn:N; cbn in E; [|discriminate]. eapply nth_some_lt; eauto.
  - split; [intros [c K]; discriminate|]. rewrite andb_true_iff, Nat.ltb_lt. intros [K _].
    destruct (list_modify_some cache (f_var e) (fun k => k ++ [i]) K) as (a & l' & _ & _ & K2). congruence.
Qed.
Lemma cache_csts_ok l : forall i cache, (exists c, cache_csts l i cache = Some c) <-> is_valid_variable_index l (length cache) = true.
Proof.
  unfold is_valid_variable_index. induction l as [|c l IH]; intros i cache; cbn [cache_csts forallb]; [split; eauto|].
  pose proof (cache_elems_ok (c_elements c) i cache) as K. destruct (cache_elems (c_elements c) i cache) as [c1|] eqn:E; cbn [bind].
  - rewrite IH. destruct (cache_elems_nth _ _ _ _ 0%nat E) as [-> _]. rewrite (proj1 K) by eauto. reflexivity.
  - split; [intros [d D]; discriminate|]. rewrite andb_true_iff. intros [D _]. apply K in D. destruct D. discriminate.
Qed.
Lemma valid_one_more op l l' n : one_more (looser op) l l' -> is_valid_variable_index l' n = is_valid_variable_index l n.
Proof.
  intros (l1 & c & l2 & c' & l3 & -> & -> & E & _). unfold is_valid_variable_index. rewrite !forallb_app. cbn [forallb]. rewrite !forallb_app. cbn [forallb].
  rewrite E. destruct (forallb _ l1), (forallb _ (c_elements c)), (forallb _ l2), (forallb _ l3); reflexivity.
Qed.

Section Loop.
Variables (op : operator_type) (vars : vmap).
(** The counter [k] of one constraint [c] in which the variable occurs [m] times. *)
Fixpoint steps (m : nat) (c : constraint) (k : nat) (lf : lifo) : outcome (nat * lifo) :=
  match m with
  | O => Ok (k, lf)
  | S m' =>
    if Nat.eqb k 0 then steps m' c k lf
    else if Nat.eqb (Nat.pred k) 1 then let! v := reduce_constraint op vars c in steps m' c 0 (lifo_emplace_opt lf v)
    else steps m' c (Nat.pred k) lf
  end.
Fixpoint affect_all (v : nat) (csts : list constraint) (cnt : list nat) (lf : lifo) : outcome (list nat * lifo) :=
  match csts, cnt with
  | c :: csts', k :: cnt' =>
    let! (k', lf') := steps (occ v (c_elements c)) c k lf in
    let! (cnt'', lf'') := affect_all v csts' cnt' lf' in Ok (k' :: cnt'', lf'')
  | _, _ => Ok ([], lf)
  end.

Lemma steps_run pre c post idx m : forall prek k postk lf, length prek = length pre ->
  affect_csts op (pre ++ c :: post) vars (repeat (length pre) m ++ idx) (prek ++ k :: postk) lf =
  obind (steps m c k lf) (fun r => affect_csts op (pre ++ c :: post) vars idx (prek ++ fst r :: postk) (snd r)).
Proof.
  induction m as [|m IH]; intros prek k postk lf L; cbn [repeat app steps]; [reflexivity|]. cbn [affect_csts].
  rewrite nth_error_app2 by lia. replace (length pre - length prek)%nat with 0%nat by lia. cbn [nth_error of_opt obind].
  destruct (Nat.eqb k 0) eqn:K; [now apply IH|]. destruct (Nat.eqb (Nat.pred k) 1).
  - rewrite nth_error_app2 by lia. rewrite Nat.sub_diag. cbn [nth_error of_opt obind].
    destruct (reduce_constraint op vars c) as [r| |]; cbn [obind]; [|reflexivity|reflexivity]. rewrite <- L, list_upd_app_mid. cbn [of_opt obind].
    rewrite L. now apply IH.
  - rewrite <- L, list_upd_app_mid. cbn [of_opt obind]. rewrite L. now apply IH.
Qed.
Lemma affect_all_run v csts : forall pre prek cnt lf, length prek = length pre -> length cnt = length csts ->
  affect_csts op (pre ++ csts) vars (idxs v csts (length pre)) (prek ++ cnt) lf =
  obind (affect_all v csts cnt lf) (fun r => Ok (prek ++ fst r, snd r)).
Proof.
  induction csts as [|c csts IH]; intros pre prek cnt lf L Lc; destruct cnt as [|k cnt]; try discriminate; cbn [idxs affect_all].
  - cbn. reflexivity.
  - rewrite steps_run by exact L. destruct (steps (occ v (c_elements c)) c k lf) as [[k' lf']| |]; cbn [obind fst snd]; [|reflexivity|reflexivity].
    specialize (IH (pre ++ [c]) (prek ++ [k']) cnt lf'). rewrite !app_length in IH. cbn [length] in IH.
    rewrite <- !app_assoc in IH. cbn [app] in IH. replace (length pre + 1)%nat with (S (length pre)) in IH by lia.
    rewrite IH by (cbn in *; lia). destruct (affect_all v csts cnt lf') as [[cn lg]| |]; cbn [obind fst snd]; [|reflexivity|reflexivity].
    now rewrite <- app_assoc.
Qed.
Lemma affect_csts_all n v csts ca cnt lf : make_cache n csts = Some ca -> length cnt = length csts -> (v < n)%nat ->
  exists ix, nth_error ca v = Some ix /\ affect_csts op csts vars ix cnt lf = affect_all v csts cnt lf.
Proof.
  intros M L V. destruct (make_cache_nth _ _ _ v M) as [_ N]. rewrite (proj2 (Nat.ltb_lt _ _) V) in N. eexists. split; [exact N|].
  pose proof (affect_all_run v csts [] [] cnt lf eq_refl L) as R. cbn [app length] in R. rewrite R. destruct (affect_all v csts cnt lf) as [[a b]| |]; reflexivity.
Qed.

(** The entries of the stack are kept. *)
Definition holds (a b : lifo) : Prop := forall v, vfind a v <> None -> vfind b v <> None.
Lemma holds_refl a : holds a a. Proof. intros v H; exact H. Qed.
Lemma holds_trans a b c : holds a b -> holds b c -> holds a c. Proof. intros H K v. auto. Qed.
Lemma holds_emplace a v b : holds a (lifo_emplace a v b).
Proof. unfold lifo_emplace. destruct (vfind a v); [apply holds_refl|]. intros w H. cbn [vfind]. destruct (Nat.eqb _ _); [discriminate|exact H]. Qed.
Lemma holds_emplace_opt a r : holds a (lifo_emplace_opt a r).
Proof. destruct r as [[v b]|]; [apply holds_emplace|apply holds_refl]. Qed.
Lemma emplace_there a v b : vfind (lifo_emplace a v b) v <> None.
Proof. unfold lifo_emplace. destruct (vfind a v) eqn:E; [congruence|]. cbn [vfind]. rewrite Nat.eqb_refl. discriminate. Qed.
Lemma emplace_again a v c : vfind a v <> None -> lifo_emplace a v c = a.
Proof. unfold lifo_emplace. destruct (vfind a v); congruence. Qed.
Lemma emplace_opt_again a r x : holds (lifo_emplace_opt x r) a -> lifo_emplace_opt a r = a.
Proof. destruct r as [[v b]|]; cbn; [|reflexivity]. intros H. apply (emplace_again a v b). apply H, emplace_there. Qed.
Lemma steps_holds m c : forall k lf r, steps m c k lf = Ok r -> holds lf (snd r).
Proof.
  induction m as [|m IH]; intros k lf r H; cbn [steps] in H; [injection H as <-; apply holds_refl|].
  destruct (Nat.eqb k 0); [eapply IH; eauto|]. destruct (Nat.eqb (Nat.pred k) 1); [|eapply IH; eauto].
  destruct (reduce_constraint op vars c) as [v| |]; cbn [obind] in H; try discriminate.
  eapply holds_trans; [apply (holds_emplace_opt lf v)|]. eapply IH; eauto.
Qed.
Lemma affect_all_holds v csts : forall cnt lf r, affect_all v csts cnt lf = Ok r -> holds lf (snd r).
Proof.
  induction csts as [|c csts IH]; intros [|k cnt] lf r H; cbn [affect_all] in H; try (injection H as <-; apply holds_refl).
  destruct (steps _ c k lf) as [[k' lf']| |] eqn:E; cbn [obind] in H; try discriminate.
  destruct (affect_all v csts cnt lf') as [[cn lg]| |] eqn:E2; cbn [obind] in H; try discriminate. injection H as <-. cbn [snd].
  eapply holds_trans; [exact (steps_holds _ _ _ _ _ E)|exact (IH _ _ _ E2)].
Qed.
Lemma reduce_same c c' : repetition op c c' -> reduce_constraint op vars c' = reduce_constraint op vars c.
Proof. intros [E V]. unfold reduce_constraint, reduce. now rewrite E, V. Qed.
Lemma steps_again c c' m : repetition op c c' -> forall k lf r lf', steps m c k lf = Ok r -> holds (snd r) lf' -> steps m c' k lf' = Ok (fst r, lf').
Proof.
  intros Q. induction m as [|m IH]; intros k lf r lf' H K; cbn [steps] in *; [injection H as <-; reflexivity|].
  destruct (Nat.eqb k 0); [eapply IH; eauto|]. destruct (Nat.eqb (Nat.pred k) 1); [|eapply IH; eauto].
  rewrite (reduce_same _ _ Q). destruct (reduce_constraint op vars c) as [v| |]; cbn [obind] in *; try discriminate.
  rewrite (emplace_opt_again lf' v lf); [eapply IH; eauto|]. eapply holds_trans; [exact (steps_holds _ _ _ _ _ H)|exact K].
Qed.
End Loop.

(** The constraints and the counters of the two runs. *)
Definition twin (op : operator_type) (l l' : list constraint) (k k' : list nat) : Prop :=
  exists l1 c l2 c' l3 k1 n k2 k3, l = l1 ++ c :: l2 ++ l3 /\ l' = l1 ++ c :: l2 ++ c' :: l3 /\ k = k1 ++ n :: k2 ++ k3 /\ k' = k1 ++ n :: k2 ++ n :: k3 /\
    length k1 = length l1 /\ length k2 = length l2 /\ length k3 = length l3 /\ repetition op c c'.
(** A loop over the constraints and their counters: what matters of it. *)
Section Two.
Variable op : operator_type.
Variable f : constraint -> nat -> lifo -> outcome (nat * lifo).
Variable loop : list constraint -> list nat -> lifo -> outcome (list nat * lifo).
Hypothesis loop_nil : forall lf, loop [] [] lf = Ok ([], lf).
Hypothesis loop_cons : forall c l k cnt lf, loop (c :: l) (k :: cnt) lf =
  let! (k', lf') := f c k lf in let! (cnt'', lf'') := loop l cnt lf' in Ok (k' :: cnt'', lf'').
Hypothesis f_holds : forall c k lf r, f c k lf = Ok r -> holds lf (snd r).
Hypothesis f_again : forall c c' k lf r lf', repetition op c c' -> f c k lf = Ok r -> holds (snd r) lf' -> f c' k lf' = Ok (fst r, lf').

Lemma loop_app l1 : forall l2 k1 k2 lf, length k1 = length l1 ->
  loop (l1 ++ l2) (k1 ++ k2) lf = let! (a, lf1) := loop l1 k1 lf in let! (b, lf2) := loop l2 k2 lf1 in Ok (a ++ b, lf2).
Proof.
  induction l1 as [|c l1 IH]; intros l2 [|k k1] k2 lf L; try discriminate; cbn [app].
  - rewrite loop_nil. cbn [obind]. destruct (loop l2 k2 lf) as [[a b]| |]; reflexivity.
  - rewrite !loop_cons. destruct (f c k lf) as [[k' lf']| |]; cbn [obind]; [|reflexivity|reflexivity]. rewrite IH by (cbn in L; lia).
    destruct (loop l1 k1 lf') as [[a b]| |]; cbn [obind]; [|reflexivity|reflexivity]. destruct (loop l2 k2 b) as [[a2 b2]| |]; reflexivity.
Qed.
Lemma loop_length l : forall k lf r, length k = length l -> loop l k lf = Ok r -> length (fst r) = length l.
Proof.
  induction l as [|c l IH]; intros [|k cnt] lf r L H; try discriminate; [rewrite loop_nil in H; injection H as <-; reflexivity|].
  rewrite loop_cons in H. destruct (f c k lf) as [[k' lf']| |]; cbn [obind] in H; try discriminate.
  destruct (loop l cnt lf') as [[a b]| |] eqn:E; cbn [obind] in H; try discriminate. injection H as <-. cbn [fst length]. f_equal.
  cbn in L. exact (IH cnt lf' _ ltac:(lia) E).
Qed.
Lemma loop_holds l : forall k lf r, length k = length l -> loop l k lf = Ok r -> holds lf (snd r).
Proof.
  induction l as [|c l IH]; intros [|k cnt] lf r L H; try discriminate; [rewrite loop_nil in H; injection H as <-; apply holds_refl|].
  rewrite loop_cons in H. destruct (f c k lf) as [[k' lf']| |] eqn:Ef; cbn [obind] in H; try discriminate.
  destruct (loop l cnt lf') as [[a b]| |] eqn:E; cbn [obind] in H; try discriminate. injection H as <-. cbn [snd].
  eapply holds_trans; [exact (f_holds _ _ _ _ Ef)|]. cbn in L. exact (IH cnt lf' _ ltac:(lia) E).
Qed.
Lemma loop_twin l l' k k' lf : twin op l l' k k' ->
  match loop l k lf with
  | Ok (a, lg) => exists a', loop l' k' lf = Ok (a', lg) /\ twin op l l' a a'
  | Throw => loop l' k' lf = Throw
  | Crash => loop l' k' lf = Crash
  end.
Proof.
  intros (l1 & c & l2 & c' & l3 & k1 & n & k2 & k3 & -> & -> & -> & -> & L1 & L2 & L3 & Q).
  rewrite !(loop_app l1) by exact L1. destruct (loop l1 k1 lf) as [[a1 lf1]| |] eqn:E1; cbn [obind]; [|reflexivity|reflexivity].
  rewrite !loop_cons. destruct (f c n lf1) as [[n' lf2]| |] eqn:Ec; cbn [obind]; [|reflexivity|reflexivity].
  rewrite !(loop_app l2) by exact L2. destruct (loop l2 k2 lf2) as [[a2 lf3]| |] eqn:E2; cbn [obind]; [|reflexivity|reflexivity].
  rewrite loop_cons, (f_again c c' n lf1 (n', lf2) lf3 Q Ec (loop_holds _ _ _ _ L2 E2)). cbn [obind fst].
  destruct (loop l3 k3 lf3) as [[a3 lf4]| |] eqn:E3; cbn [obind]; [|reflexivity|reflexivity].
  eexists. split; [reflexivity|]. exists l1, c, l2, c', l3, a1, n', a2, a3. do 4 (split; [reflexivity|]).
  split; [exact (loop_length _ _ _ _ L1 E1)|]. split; [exact (loop_length _ _ _ _ L2 E2)|]. split; [exact (loop_length _ _ _ _ L3 E3)|exact Q].
Qed.
End Two.

Lemma twin_lengths op l l' k k' : twin op l l' k k' -> length k = length l /\ length k' = length l'.
Proof.
  intros (l1 & c & l2 & c' & l3 & k1 & n & k2 & k3 & -> & -> & -> & -> & L1 & L2 & L3 & Q). repeat (rewrite !app_length; cbn [length]). lia.
Qed.
Lemma affect_all_twin op vars v l l' k k' lf : twin op l l' k k' ->
  match affect_all op vars v l k lf with
  | Ok (a, lg) => exists a', affect_all op vars v l' k' lf = Ok (a', lg) /\ twin op l l' a a'
  | Throw => affect_all op vars v l' k' lf = Throw
  | Crash => affect_all op vars v l' k' lf = Crash
  end.
Proof.
  apply (loop_twin op (fun c => steps op vars (occ v (c_elements c)) c) (affect_all op vars v)).
  - reflexivity.
  - reflexivity.
  - intros c n lf0 r. apply steps_holds.
  - intros c c' n lf0 r lf' Q H K. rewrite (proj1 Q). eapply steps_again; eauto.
Qed.
Lemma pass_twin op vars v n l l' ca ca' k k' lf : make_cache n l = Some ca -> make_cache n l' = Some ca' -> twin op l l' k k' ->
  match nth_error ca v with
  | None => nth_error ca' v = None
  | Some ix => exists ix', nth_error ca' v = Some ix' /\
    match affect_csts op l vars ix k lf with
    | Ok (a, lg) => exists a', affect_csts op l' vars ix' k' lf = Ok (a', lg) /\ twin op l l' a a'
    | Throw => affect_csts op l' vars ix' k' lf = Throw
    | Crash => affect_csts op l' vars ix' k' lf = Crash
    end
  end.
Proof.
  intros M M' T. destruct (twin_lengths _ _ _ _ _ T) as [L L']. destruct (lt_dec v n) as [V|V].
  - destruct (affect_csts_all op vars n v l ca k lf M L V) as (ix & N & R). destruct (affect_csts_all op vars n v l' ca' k' lf M' L' V) as (ix' & N' & R').
    rewrite N. exists ix'. split; [exact N'|]. rewrite R, R'. now apply affect_all_twin.
  - destruct (make_cache_nth _ _ _ v M) as [_ ->]. destruct (make_cache_nth _ _ _ v M') as [_ ->].
    destruct (Nat.ltb_spec v n); [lia|reflexivity].
Qed.

Lemma emplace_all_holds l b : forall lf, holds lf (emplace_all l b lf).
Proof.
  unfold emplace_all. induction l as [|e l IH]; intros lf; cbn [fold_left]; [apply holds_refl|].
  eapply holds_trans; [apply (holds_emplace lf (f_var e) b)|apply IH].
Qed.
Lemma emplace_all_there l b : forall lf e, In e l -> vfind (emplace_all l b lf) (f_var e) <> None.
Proof.
  unfold emplace_all. induction l as [|a l IH]; intros lf e H; [destruct H|]. cbn [fold_left]. destruct H as [->|H]; [|now apply IH].
  apply (emplace_all_holds l b (lifo_emplace lf (f_var e) b)). apply emplace_there.
Qed.
Lemma emplace_all_again l b : forall lf, (forall e, In e l -> vfind lf (f_var e) <> None) -> emplace_all l b lf = lf.
Proof.
  unfold emplace_all. induction l as [|e l IH]; intros lf H; cbn [fold_left]; [reflexivity|].
  rewrite (emplace_again lf (f_var e) b) by (apply H; now left). apply IH. intros a Ha. apply H. now right.
Qed.
Lemma unit_holds op vars c k lf r : affect_unit op vars c k lf = Ok r -> holds lf (snd r).
Proof.
  unfold affect_unit. destruct (Nat.eqb k 1).
  - destruct (reduce_constraint op vars c) as [v| |]; cbn [obind]; try discriminate. intros H. injection H as <-. apply holds_emplace_opt.
  - destruct (is_all_factor_ge_than_zero c); [|intros H; injection H as <-; apply holds_refl].
    destruct op; repeat match goal with |- context [if ?b then _ else _] => destruct b end; intros H; injection H as <-; cbn [snd];
      try apply emplace_all_holds; apply holds_refl.
Qed.
Lemma unit_again op vars c c' k lf r lf' : repetition op c c' -> affect_unit op vars c k lf = Ok r -> holds (snd r) lf' ->
  affect_unit op vars c' k lf' = Ok (fst r, lf').
Proof.
  intros Q. pose proof Q as [E V]. unfold affect_unit, is_all_factor_ge_than_zero, sum_factor. rewrite (reduce_same op vars _ _ Q), E, V. destruct (Nat.eqb k 1).
  - destruct (reduce_constraint op vars c) as [v| |]; cbn [obind]; try discriminate. intros H K. injection H as <-. cbn [fst snd] in *.
    now rewrite (emplace_opt_again lf' v lf).
  - destruct (forallb _ _); [|intros H K; injection H as <-; reflexivity].
    destruct op; repeat match goal with |- context [if ?b then _ else _] => destruct b end; intros H K; injection H as <-; cbn [fst snd] in *;
      try reflexivity; (rewrite emplace_all_again; [reflexivity|]); intros e He; apply K; now apply emplace_all_there.
Qed.
Lemma units_twin op vars l l' k k' lf : twin op l l' k k' ->
  match affect_units op vars l k lf with
  | Ok (a, lg) => exists a', affect_units op vars l' k' lf = Ok (a', lg) /\ twin op l l' a a'
  | Throw => affect_units op vars l' k' lf = Throw
  | Crash => affect_units op vars l' k' lf = Crash
  end.
Proof.
  apply (loop_twin op (affect_unit op vars) (affect_units op vars)); [reflexivity|reflexivity|apply unit_holds|].
  intros c c' n lf0 r lf' Q H K. eapply unit_again; eauto.
Qed.

(** Is a variable used? *)
Fixpoint any_all (v : nat) (csts : list constraint) (cnt : list nat) : bool :=
  match csts, cnt with c :: l, k :: cnt' => (Nat.ltb 0 (occ v (c_elements c)) && Nat.ltb 0 k) || any_all v l cnt' | _, _ => false end.
Lemma any_pos_repeat cnt i k m idx : nth_error cnt i = Some k ->
  any_pos cnt (repeat i m ++ idx) = option_map (orb (Nat.ltb 0 m && Nat.ltb 0 k)) (any_pos cnt idx).
Proof.
  intros N. induction m as [|m IH]; cbn [repeat app].
  - destruct (any_pos cnt idx); reflexivity.
  - change (any_pos cnt (i :: repeat i m ++ idx)) with (do k <- nth_error cnt i; do r <- any_pos cnt (repeat i m ++ idx); Some (Nat.ltb 0 k || r)).
    rewrite N, IH. cbn [bind]. destruct (any_pos cnt idx) as [r|]; cbn [option_map bind]; [|reflexivity]. f_equal.
    change (Nat.ltb 0 (S m)) with true. cbn [andb]. destruct (Nat.ltb 0 k), (Nat.ltb 0 m), r; reflexivity.
Qed.
Lemma any_pos_all v csts : forall prek cnt, length cnt = length csts ->
  any_pos (prek ++ cnt) (idxs v csts (length prek)) = Some (any_all v csts cnt).
Proof.
  induction csts as [|c csts IH]; intros prek [|k cnt] L; try discriminate; [reflexivity|]. cbn [idxs any_all].
  rewrite (any_pos_repeat _ _ k) by (rewrite nth_error_app2, Nat.sub_diag by lia; reflexivity).
  specialize (IH (prek ++ [k]) cnt). rewrite app_length in IH. cbn [length] in IH. rewrite <- app_assoc in IH. cbn [app] in IH.
  replace (length prek + 1)%nat with (S (length prek)) in IH by lia. rewrite IH by (cbn in L; lia). reflexivity.
Qed.
Lemma any_all_app v l1 : forall l2 k1 k2, length k1 = length l1 -> any_all v (l1 ++ l2) (k1 ++ k2) = any_all v l1 k1 || any_all v l2 k2.
Proof.
  induction l1 as [|c l1 IH]; intros l2 [|k k1] k2 L; try discriminate; [reflexivity|]. cbn [app any_all]. rewrite IH by (cbn in L; lia). apply orb_assoc.
Qed.
Lemma any_all_twin op v l l' k k' : twin op l l' k k' -> any_all v l' k' = any_all v l k.
Proof.
  intros (l1 & c & l2 & c' & l3 & k1 & n & k2 & k3 & -> & -> & -> & -> & L1 & L2 & L3 & E & _).
  rewrite !(any_all_app v l1) by exact L1. cbn [any_all]. rewrite !(any_all_app v l2) by exact L2. cbn [any_all]. rewrite E.
  destruct (any_all v l1 k1), (Nat.ltb 0 _ && Nat.ltb 0 _), (any_all v l2 k2), (any_all v l3 k3); reflexivity.
Qed.
Lemma any_pos_twin op v n l l' ca ca' k k' : make_cache n l = Some ca -> make_cache n l' = Some ca' -> twin op l l' k k' ->
  (do ix <- nth_error ca' v; any_pos k' ix) = (do ix <- nth_error ca v; any_pos k ix).
Proof.
  intros M M' T. destruct (twin_lengths _ _ _ _ _ T) as [L L']. destruct (make_cache_nth _ _ _ v M) as [_ ->]. destruct (make_cache_nth _ _ _ v M') as [_ ->].
  destruct (Nat.ltb v n); cbn [bind]; [|reflexivity]. pose proof (any_pos_all v l [] k L) as A. pose proof (any_pos_all v l' [] k' L') as A'.
  cbn [app length] in A, A'. rewrite A, A'. now rewrite (any_all_twin _ _ _ _ _ _ T).
Qed.

(** The constraints that remain. *)
Lemma exclude_app m l1 : forall l2 k1 k2, length k1 = length l1 ->
  constraints_exclude_copy m (k1 ++ k2) (l1 ++ l2) =
  do a <- constraints_exclude_copy m k1 l1; do b <- constraints_exclude_copy m k2 l2; Some (a ++ b).
Proof.
  induction l1 as [|c l1 IH]; intros l2 [|k k1] k2 L; try discriminate; cbn [app].
  - destruct l2; cbn [constraints_exclude_copy bind]; [reflexivity|]. destruct k2; cbn; [reflexivity|].
    destruct (Nat.leb n 1); [destruct (constraints_exclude_copy m k2 l2); reflexivity|].
    destruct (copy_elements m _ _); cbn; [|reflexivity]. destruct (constraints_exclude_copy m k2 l2); reflexivity.
  - cbn [constraints_exclude_copy]. rewrite IH by (cbn in L; lia). destruct (Nat.leb k 1); [reflexivity|].
    destruct (copy_elements m _ _); cbn [bind]; [|reflexivity]. destruct (constraints_exclude_copy m k1 l1); cbn [bind]; [|reflexivity].
    destruct (constraints_exclude_copy m k2 l2); reflexivity.
Qed.
Lemma exclude_twin op m l l' k k' : twin op l l' k k' ->
  match constraints_exclude_copy m k l with
  | None => constraints_exclude_copy m k' l' = None
  | Some q => exists q', constraints_exclude_copy m k' l' = Some q' /\ (q' = q \/ one_more (repetition op) q q')
  end.
Proof.
  intros (l1 & c & l2 & c' & l3 & k1 & n & k2 & k3 & -> & -> & -> & -> & L1 & L2 & L3 & E & V).
  rewrite !(exclude_app m l1) by exact L1. destruct (constraints_exclude_copy m k1 l1) as [a1|]; cbn [bind]; [|reflexivity].
  cbn [constraints_exclude_copy]. destruct (Nat.leb n 1) eqn:N.
  - rewrite !(exclude_app m l2) by exact L2. destruct (constraints_exclude_copy m k2 l2) as [a2|]; cbn [bind]; [|reflexivity].
    cbn [constraints_exclude_copy]. rewrite N. destruct (constraints_exclude_copy m k3 l3) as [a3|]; cbn [bind]; [|reflexivity]. eauto.
  - destruct (copy_elements m (c_elements c) (c_value c)) as [r|] eqn:C; cbn [bind]; [|reflexivity].
    rewrite !(exclude_app m l2) by exact L2. destruct (constraints_exclude_copy m k2 l2) as [a2|]; cbn [bind]; [|reflexivity].
    cbn [constraints_exclude_copy]. rewrite N, E, V, C. cbn [bind]. destruct (constraints_exclude_copy m k3 l3) as [a3|]; cbn [bind]; [|reflexivity].
    eexists. split; [reflexivity|]. right. eexists a1, _, a2, _, a3. split; [reflexivity|]. split; [reflexivity|]. split; reflexivity.
Qed.

Lemma fold_left_same {A B} (f g : A -> B -> A) l : (forall a b, f a b = g a b) -> forall a, fold_left f l a = fold_left g l a.
Proof. intros H. induction l as [|b l IH]; intros a; cbn [fold_left]; [reflexivity|]. rewrite H. apply IH. Qed.
Lemma repetition_looser op c c' : repetition op c c' -> looser op c c'.
Proof. intros [E V]. split; [exact E|]. destruct op; lia. Qed.
Lemma one_more_impl (P Q : constraint -> constraint -> Prop) l l' : (forall c c', P c c' -> Q c c') -> one_more P l l' -> one_more Q l l'.
Proof. intros H (l1 & c & l2 & c' & l3 & A & B & C). exists l1, c, l2, c', l3. auto. Qed.
Lemma related_looser op pb pb' : related repetition op pb pb' -> related looser op pb pb'.
Proof.
  intros (A & B & C & D & E & H). do 5 (split; [assumption|]).
  destruct op; destruct H as (H & K); (split; [|exact K]); eapply one_more_impl; [|exact H| |exact H| |exact H]; intros; now apply repetition_looser.
Qed.

Section Sim.
Variables (op : operator_type) (pb pb' : problem) (ch ch' : caches).
Hypothesis Hrel : related repetition op pb pb'.
Hypothesis Hch : make_caches pb = Some ch.
Hypothesis Hch' : make_caches pb' = Some ch'.

Definition srel (s s' : pstate) : Prop :=
  s_vars s' = s_vars s /\ s_lifo s' = s_lifo s /\
  match op with
  | op_equal => twin op (p_equal pb) (p_equal pb') (s_equal s) (s_equal s') /\ s_greater s' = s_greater s /\ s_less s' = s_less s
  | op_greater => twin op (p_greater pb) (p_greater pb') (s_greater s) (s_greater s') /\ s_equal s' = s_equal s /\ s_less s' = s_less s
  | op_less => twin op (p_less pb) (p_less pb') (s_less s) (s_less s') /\ s_equal s' = s_equal s /\ s_greater s' = s_greater s
  end.
Notation nv := (length (v_values (p_vars pb))).
Lemma caches_are : make_cache nv (p_equal pb) = Some (in_equal ch) /\ make_cache nv (p_greater pb) = Some (in_greater ch) /\ make_cache nv (p_less pb) = Some (in_less ch).
Proof.
  unfold make_caches in Hch. destruct (make_cache _ (p_equal pb)) as [a|]; cbn [bind] in Hch; [|discriminate].
  destruct (make_cache _ (p_greater pb)) as [b|]; cbn [bind] in Hch; [|discriminate].
  destruct (make_cache _ (p_less pb)) as [c|]; cbn [bind] in Hch; [|discriminate]. injection Hch as <-. auto.
Qed.
Lemma caches_are' : make_cache nv (p_equal pb') = Some (in_equal ch') /\ make_cache nv (p_greater pb') = Some (in_greater ch') /\ make_cache nv (p_less pb') = Some (in_less ch').
Proof.
  destruct Hrel as (_ & Hv & _). rewrite <- Hv.
  unfold make_caches in Hch'. destruct (make_cache _ (p_equal pb')) as [a|]; cbn [bind] in Hch'; [|discriminate].
  destruct (make_cache _ (p_greater pb')) as [b|]; cbn [bind] in Hch'; [|discriminate].
  destruct (make_cache _ (p_less pb')) as [c|]; cbn [bind] in Hch'; [|discriminate]. injection Hch' as <-. auto.
Qed.

Definition orel (x y : outcome pstate) : Prop :=
  match x with Ok s => exists s', y = Ok s' /\ srel s s' | Throw => y = Throw | Crash => y = Crash end.

Ltac same_pass := match goal with |- context [of_opt ?x] => destruct x as [?|]; cbn [of_opt obind]; [|reflexivity] end;
  match goal with |- context [affect_csts ?o ?l ?vs ?ix ?k ?lf] => destruct (affect_csts o l vs ix k lf) as [[? ?]| |]; cbn [obind]; [|reflexivity|reflexivity] end.
Ltac twin_pass := match goal with
  | P : match nth_error ?ca ?v with Some _ => _ | None => _ end |- _ =>
    destruct (nth_error ca v) as [?ix|]; [destruct P as (?ix' & -> & P)|rewrite P]; cbn [of_opt obind]; [|reflexivity];
    match type of P with match ?x with Ok _ => _ | Throw => _ | Crash => _ end => destruct x as [[?a ?lg]| |]; cbn [obind] end;
    [destruct P as (?a' & -> & ?T)|rewrite P|rewrite P]; cbn [obind]; [|reflexivity|reflexivity]
  end.
Lemma step_related s s' v b lf : srel s s' -> orel (affect_step pb ch s v b lf) (affect_step pb' ch' s' v b lf).
Proof.
  intros (V & L & R). destruct Hrel as (_ & Hv & _ & _ & _ & K). destruct caches_are as (C1 & C2 & C3). destruct caches_are' as (D1 & D2 & D3).
  unfold affect_step, orel. rewrite V. set (vars := vemplace (s_vars s) v b). unfold srel. clear Hrel.
  destruct op; destruct R as (T & R1 & R2); destruct K as (_ & K1 & K2); rewrite K1 in *; rewrite K2 in *; rewrite R1, R2.
  - rewrite C2 in D2. rewrite C3 in D3. injection D2 as <-. injection D3 as <-.
    pose proof (pass_twin op_equal vars v _ _ _ _ _ _ _ lf C1 D1 T) as P. twin_pass. same_pass. same_pass.
    eexists. split; [reflexivity|]. cbn. auto.
  - rewrite C1 in D1. rewrite C3 in D3. injection D1 as <-. injection D3 as <-. same_pass.
    match goal with |- context [affect_csts op_greater (p_greater pb) vars _ _ ?lf1] => pose proof (pass_twin op_greater vars v _ _ _ _ _ _ _ lf1 C2 D2 T) as P end.
    twin_pass. same_pass. eexists. split; [reflexivity|]. cbn. auto.
  - rewrite C1 in D1. rewrite C2 in D2. injection D1 as <-. injection D2 as <-. same_pass. same_pass.
    match goal with |- context [affect_csts op_less (p_less pb) vars _ _ ?lf1] => pose proof (pass_twin op_less vars v _ _ _ _ _ _ _ lf1 C3 D3 T) as P end.
    twin_pass. eexists. split; [reflexivity|]. cbn. auto.
Qed.
Lemma affects_related fuel : forall s s', srel s s' ->
  match affects fuel pb ch s with
  | Ok (Some t) => exists t', affects fuel pb' ch' s' = Ok (Some t') /\ srel t t'
  | Ok None => affects fuel pb' ch' s' = Ok None
  | Throw => affects fuel pb' ch' s' = Throw
  | Crash => affects fuel pb' ch' s' = Crash
  end.
Proof.
  induction fuel as [|fuel IH]; intros s s' R; cbn [affects]; [reflexivity|]. pose proof R as (_ & L & _). rewrite L.
  destruct (s_lifo s) as [|[v b] lf]; [eauto|]. pose proof (step_related s s' v b lf R) as P. unfold orel in P.
  destruct (affect_step pb ch s v b lf) as [t| |]; cbn [obind]; [destruct P as (t' & -> & P); cbn [obind]; now apply IH|rewrite P; reflexivity|rewrite P; reflexivity].
Qed.
Lemma unused_related s s' v : srel s s' -> is_unused_variable ch' s' v = is_unused_variable ch s v.
Proof.
  intros (V & L & R). destruct Hrel as (_ & Hv & _ & _ & _ & K). destruct caches_are as (C1 & C2 & C3). destruct caches_are' as (D1 & D2 & D3).
  assert (forall ch s, is_unused_variable ch s v =
    do e <- (do ix <- nth_error (in_equal ch) v; any_pos (s_equal s) ix);
    do g <- (do ix <- nth_error (in_greater ch) v; any_pos (s_greater s) ix);
    do l <- (do ix <- nth_error (in_less ch) v; any_pos (s_less s) ix); Some (negb (e || g || l))) as U.
  { clear. intros ch s. unfold is_unused_variable. destruct (nth_error (in_equal ch) v); cbn [bind]; [|reflexivity].
    destruct (any_pos (s_equal s) l); cbn [bind]; [|reflexivity]. destruct (nth_error (in_greater ch) v); cbn [bind]; [|reflexivity].
    destruct (any_pos (s_greater s) l0); cbn [bind]; [|reflexivity]. destruct (nth_error (in_less ch) v); cbn [bind]; reflexivity. }
  rewrite !U. clear U Hrel.
  destruct op; destruct R as (T & R1 & R2); destruct K as (_ & K1 & K2); rewrite K1 in *; rewrite K2 in *; rewrite R1, R2.
  - rewrite C2 in D2. rewrite C3 in D3. injection D2 as <-. injection D3 as <-. now rewrite (any_pos_twin _ v _ _ _ _ _ _ _ C1 D1 T).
  - rewrite C1 in D1. rewrite C3 in D3. injection D1 as <-. injection D3 as <-. now rewrite (any_pos_twin _ v _ _ _ _ _ _ _ C2 D2 T).
  - rewrite C1 in D1. rewrite C2 in D2. injection D1 as <-. injection D2 as <-. now rewrite (any_pos_twin _ v _ _ _ _ _ _ _ C3 D3 T).
Qed.
Lemma cache_len : length (in_equal ch') = length (in_equal ch).
Proof.
  destruct caches_are as (C1 & _). destruct caches_are' as (D1 & _). destruct (make_cache_nth _ _ _ 0%nat C1) as [-> _]. destruct (make_cache_nth _ _ _ 0%nat D1) as [-> _].
  reflexivity.
Qed.
Lemma bqp_related s s' : srel s s' -> make_lp_from_bqp_objective pb' ch' s' = make_lp_from_bqp_objective pb ch s.
Proof.
  intros R. pose proof R as (V & _). unfold make_lp_from_bqp_objective. rewrite cache_len. destruct Hrel as (Ho & _ & _ & Ht & _).
  apply fold_left_same. intros acc i. now rewrite V, (unused_related _ _ _ R), Ho, Ht.
Qed.
Lemma remove_related s s' is : srel s s' -> forall vars, remove_unused pb' ch' s' is vars = remove_unused pb ch s is vars.
Proof.
  intros R. destruct Hrel as (Ho & _ & _ & Ht & _). induction is as [|i is IH]; intros vars; cbn [remove_unused]; [reflexivity|].
  rewrite (unused_related _ _ _ R). replace (unused_value pb' i) with (unused_value pb i) by (unfold unused_value; now rewrite Ho, Ht).
  destruct (vfind vars i); [apply IH|]. destruct (is_unused_variable ch s i); cbn [bind]; [apply IH|reflexivity].
Qed.
Lemma try_remove_related s s' : srel s s' ->
  match try_remove_unused_variable pb ch s with
  | Some t => exists t', try_remove_unused_variable pb' ch' s' = Some t' /\ srel t t'
  | None => try_remove_unused_variable pb' ch' s' = None
  end.
Proof.
  intros R. pose proof R as (V & L & K). unfold try_remove_unused_variable. rewrite cache_len, V, (remove_related _ _ _ R).
  destruct (remove_unused pb ch s _ (s_vars s)) as [vars|]; cbn [bind]; [|reflexivity]. eexists. split; [reflexivity|]. unfold srel. cbn. auto.
Qed.

(** The same reduced problem, or with one repetition. *)
Definition same_or_related (q q' : problem) : Prop := q' = q \/ related repetition op q q'.
Lemma make_problem_related aff mo s s' : srel s s' ->
  match make_problem pb aff mo s with
  | Ok q => exists q', make_problem pb' aff mo s' = Ok q' /\ same_or_related q q'
  | Throw => make_problem pb' aff mo s' = Throw
  | Crash => make_problem pb' aff mo s' = Crash
  end.
Proof.
  intros (V & _ & R). destruct Hrel as (Ho & Hv & _ & Ht & Hp & K). unfold make_problem. rewrite V, Ho, Hv, Ht, Hp.
  set (n := length (v_values (p_vars pb))). set (m := make_mapping (s_vars s) (seq 0 n) 0).
  destruct (Nat.eqb _ _); cbn [ensures]; [|reflexivity].
  destruct (objective_function_exclude_copy m (p_objective pb) mo) as [o|]; cbn [of_opt obind]; [|reflexivity].
  destruct (variables_exclude_copy (s_vars s) (p_vars pb) (seq 0 n) (mk_variables [] []) aff) as [[vs af]|]; cbn [of_opt obind]; [|reflexivity].
  destruct (names_kept _ _ _); cbn [ensures]; [|reflexivity].
  assert (H : match obind (of_opt (constraints_exclude_copy m (s_equal s) (p_equal pb))) (fun e => obind (of_opt (constraints_exclude_copy m (s_greater s) (p_greater pb))) (fun g =>
      obind (of_opt (constraints_exclude_copy m (s_less s) (p_less pb))) (fun l => Ok (e, g, l)))) with
    | Ok (e, g, l) => exists e' g' l', constraints_exclude_copy m (s_equal s') (p_equal pb') = Some e' /\ constraints_exclude_copy m (s_greater s') (p_greater pb') = Some g' /\
        constraints_exclude_copy m (s_less s') (p_less pb') = Some l' /\
        forall t k, same_or_related (mk_problem o e g l vs af t k) (mk_problem o e' g' l' vs af t k)
    | _ => constraints_exclude_copy m (s_equal s') (p_equal pb') = None \/ (constraints_exclude_copy m (s_equal s') (p_equal pb') <> None /\
        constraints_exclude_copy m (s_greater s') (p_greater pb') = None) \/ (constraints_exclude_copy m (s_equal s') (p_equal pb') <> None /\
        constraints_exclude_copy m (s_greater s') (p_greater pb') <> None /\ constraints_exclude_copy m (s_less s') (p_less pb') = None)
    end).
  { clear Hrel. unfold same_or_related, related.
    destruct op; destruct R as (T & R1 & R2); destruct K as (_ & K1 & K2); rewrite K1, K2, R1, R2; pose proof (exclude_twin _ m _ _ _ _ T) as X.
    - destruct (constraints_exclude_copy m (s_equal s) (p_equal pb)) as [e|]; cbn [of_opt obind]; [destruct X as (e' & -> & X)|now left].
      destruct (constraints_exclude_copy m (s_greater s) (p_greater pb)) as [g|]; cbn [of_opt obind]; [|right; left; split; [discriminate|reflexivity]].
      destruct (constraints_exclude_copy m (s_less s) (p_less pb)) as [l|]; cbn [of_opt obind]; [|right; right; split; [discriminate|split; [discriminate|reflexivity]]].
      exists e', g, l. do 3 (split; [reflexivity|]). intros t k. destruct X as [->|X]; [now left|right; cbn; auto 10].
    - destruct (constraints_exclude_copy m (s_equal s) (p_equal pb)) as [e|]; cbn [of_opt obind]; [|now left].
      destruct (constraints_exclude_copy m (s_greater s) (p_greater pb)) as [g|]; cbn [of_opt obind]; [destruct X as (g' & -> & X)|right; left; split; [discriminate|exact X]].
      destruct (constraints_exclude_copy m (s_less s) (p_less pb)) as [l|]; cbn [of_opt obind]; [|right; right; split; [discriminate|split; [discriminate|reflexivity]]].
      exists e, g', l. do 3 (split; [reflexivity|]). intros t k. destruct X as [->|X]; [now left|right; cbn; auto 10].
    - destruct (constraints_exclude_copy m (s_equal s) (p_equal pb)) as [e|]; cbn [of_opt obind]; [|now left].
      destruct (constraints_exclude_copy m (s_greater s) (p_greater pb)) as [g|]; cbn [of_opt obind]; [|right; left; split; [discriminate|reflexivity]].
      destruct (constraints_exclude_copy m (s_less s) (p_less pb)) as [l|]; cbn [of_opt obind]; [destruct X as (l' & -> & X)|right; right; split; [discriminate|split; [discriminate|exact X]]].
      exists e, g, l'. do 3 (split; [reflexivity|]). intros t k. destruct X as [->|X]; [now left|right; cbn; auto 10]. }
  assert (N : match obind (of_opt (constraints_exclude_copy m (s_equal s') (p_equal pb'))) (fun eq => obind (of_opt (constraints_exclude_copy m (s_greater s') (p_greater pb'))) (fun gr =>
      of_opt (constraints_exclude_copy m (s_less s') (p_less pb')))) with Ok _ => True | Throw => False | Crash => True end).
  { repeat match goal with |- context [of_opt ?x] => destruct x; cbn [of_opt obind] end; exact I. }
  destruct (constraints_exclude_copy m (s_equal s) (p_equal pb)) as [e|]; cbn [of_opt obind] in *;
    [destruct (constraints_exclude_copy m (s_greater s) (p_greater pb)) as [g|]; cbn [of_opt obind] in *;
      [destruct (constraints_exclude_copy m (s_less s) (p_less pb)) as [l|]; cbn [of_opt obind] in *|]|].
  2-4: destruct H as [H|[(H0 & H)|(H0 & H1 & H)]]; repeat match goal with |- context [of_opt ?x] => destruct x; try congruence; cbn [of_opt obind] end; reflexivity.
  destruct H as (e' & g' & l' & -> & -> & -> & Q). cbn [of_opt obind].
  assert (W : is_valid_variable_index e' (length (v_values vs)) && is_valid_variable_index g' (length (v_values vs)) && is_valid_variable_index l' (length (v_values vs)) =
    is_valid_variable_index e (length (v_values vs)) && is_valid_variable_index g (length (v_values vs)) && is_valid_variable_index l (length (v_values vs)) /\
    which_problem_type (mk_problem o e' g' l' vs af (p_type pb) (p_problem_type pb)) = which_problem_type (mk_problem o e g l vs af (p_type pb) (p_problem_type pb))).
  { destruct (Q (p_type pb) (p_problem_type pb)) as [E|E]; [injection E as -> -> ->; auto|]. apply related_looser in E. split; [|now apply (which_related op)].
    destruct E as (_ & _ & _ & _ & _ & E). cbn [p_equal p_greater p_less] in E. destruct op; destruct E as (E & -> & ->); now rewrite (valid_one_more _ _ _ _ E). }
  destruct W as [-> ->]. destruct (_ && _); cbn [ensures]; [|reflexivity]. eexists. split; [reflexivity|]. apply Q.
Qed.

Definition prel (x y : outcome (option problem)) : Prop :=
  match x with
  | Ok (Some q) => exists q', y = Ok (Some q') /\ same_or_related q q'
  | Ok None => y = Ok None
  | Throw => y = Throw
  | Crash => y = Crash
  end.
Lemma finish_related fuel aff s s' : srel s s' -> prel (finish fuel pb aff ch s) (finish fuel pb' aff ch' s').
Proof.
  intros R. unfold finish, prel. pose proof (affects_related fuel _ _ R) as A.
  destruct (affects fuel pb ch s) as [[t|]| |]; cbn [obind]; [destruct A as (t' & -> & A)|rewrite A; reflexivity|rewrite A; reflexivity|rewrite A; reflexivity].
  cbn [obind]. rewrite (bqp_related _ _ A). destruct (make_lp_from_bqp_objective pb ch t) as [mo|]; cbn [of_opt obind]; [|reflexivity].
  pose proof (try_remove_related _ _ A) as B. destruct (try_remove_unused_variable pb ch t) as [t2|]; cbn [of_opt obind]; [destruct B as (t2' & -> & B)|rewrite B; reflexivity].
  cbn [of_opt obind]. pose proof (affects_related fuel _ _ B) as C.
  destruct (affects fuel pb ch t2) as [[t3|]| |]; cbn [obind]; [destruct C as (t3' & -> & C)|rewrite C; reflexivity|rewrite C; reflexivity|rewrite C; reflexivity].
  cbn [obind]. pose proof (make_problem_related aff mo _ _ C) as D.
  destruct (make_problem pb aff mo t3) as [q| |]; cbn [obind]; [destruct D as (q' & -> & D); cbn [obind]; eauto|rewrite D; reflexivity|rewrite D; reflexivity].
Qed.
Lemma try_affect_related s s' : srel s s' -> orel (try_affect_variable pb s) (try_affect_variable pb' s').
Proof.
  intros (V & L & R). destruct Hrel as (_ & Hv & _ & _ & _ & K). unfold try_affect_variable, orel, srel. rewrite V, L. clear Hrel.
  destruct op; destruct R as (T & R1 & R2); destruct K as (_ & K1 & K2); rewrite K1, K2, R1, R2.
  - pose proof (units_twin op_equal (s_vars s) _ _ _ _ (s_lifo s) T) as P.
    destruct (affect_units op_equal _ (p_equal pb) _ _) as [[a lf]| |]; cbn [obind]; [destruct P as (a' & -> & P)|rewrite P; reflexivity|rewrite P; reflexivity]. cbn [obind].
    destruct (affect_units op_greater _ _ _ _) as [[b lf1]| |]; cbn [obind]; [|reflexivity|reflexivity].
    destruct (affect_units op_less _ _ _ _) as [[c lf2]| |]; cbn [obind]; [|reflexivity|reflexivity]. eexists. split; [reflexivity|]. cbn. auto.
  - destruct (affect_units op_equal _ _ _ _) as [[b lf1]| |]; cbn [obind]; [|reflexivity|reflexivity].
    pose proof (units_twin op_greater (s_vars s) _ _ _ _ lf1 T) as P.
    destruct (affect_units op_greater _ (p_greater pb) _ _) as [[a lf]| |]; cbn [obind]; [destruct P as (a' & -> & P)|rewrite P; reflexivity|rewrite P; reflexivity]. cbn [obind].
    destruct (affect_units op_less _ _ _ _) as [[c lf2]| |]; cbn [obind]; [|reflexivity|reflexivity]. eexists. split; [reflexivity|]. cbn. auto.
  - destruct (affect_units op_equal _ _ _ _) as [[b lf1]| |]; cbn [obind]; [|reflexivity|reflexivity].
    destruct (affect_units op_greater _ _ _ _) as [[c lf2]| |]; cbn [obind]; [|reflexivity|reflexivity].
    pose proof (units_twin op_less (s_vars s) _ _ _ _ lf2 T) as P.
    destruct (affect_units op_less _ (p_less pb) _ _) as [[a lf]| |]; cbn [obind]; [destruct P as (a' & -> & P)|rewrite P; reflexivity|rewrite P; reflexivity]. cbn [obind].
    eexists. split; [reflexivity|]. cbn. auto.
Qed.
End Sim.

Lemma twin_start op l l' : one_more (repetition op) l l' -> twin op l l' (lengths l) (lengths l').
Proof.
  intros (l1 & c & l2 & c' & l3 & -> & -> & Q). exists l1, c, l2, c', l3, (lengths l1), (length (c_elements c)), (lengths l2), (lengths l3).
  unfold lengths. repeat (rewrite !map_app; cbn [map]). rewrite (proj1 Q). rewrite !map_length. repeat split; try reflexivity; apply Q.
Qed.
Lemma make_cache_none op n l l' : one_more (looser op) l l' -> make_cache n l = None <-> make_cache n l' = None.
Proof.
  intros H. unfold make_cache. pose proof (cache_csts_ok l 0 (repeat [] n)) as A. pose proof (cache_csts_ok l' 0 (repeat [] n)) as B.
  rewrite (valid_one_more _ _ _ _ H) in B. destruct (cache_csts l _ _), (cache_csts l' _ _); split; intros; try congruence.
  - assert (exists c : list (list nat), None = Some c) as [? ?] by (apply B, A; eauto). discriminate.
  - assert (exists c : list (list nat), None = Some c) as [? ?] by (apply A, B; eauto). discriminate.
Qed.
Lemma make_caches_none op pb pb' : related looser op pb pb' -> make_caches pb = None <-> make_caches pb' = None.
Proof.
  intros (_ & Hv & _ & _ & _ & H). unfold make_caches. rewrite Hv. set (n := length (v_values (p_vars pb))).
  destruct op; destruct H as (A & B & C); rewrite B, C; pose proof (make_cache_none _ n _ _ A) as [K1 K2];
    repeat match goal with |- context [make_cache n ?l] => destruct (make_cache n l); cbn [bind] end;
    try (specialize (K1 eq_refl)); try (specialize (K2 eq_refl)); split; intros; congruence.
Qed.
Lemma preprocess_related op fuel pb pb' : related repetition op pb pb' -> prel op (preprocess fuel pb) (preprocess fuel pb').
Proof.
  intros H. unfold preprocess. pose proof (make_caches_none op pb pb' (related_looser _ _ _ H)) as N.
  destruct (make_caches pb) as [ch|] eqn:C; cbn [of_opt obind]; [|rewrite (proj1 N eq_refl); reflexivity].
  destruct (make_caches pb') as [ch'|] eqn:C'; [|destruct N as [_ N]; discriminate (N eq_refl)]. cbn [of_opt obind].
  match goal with |- prel _ (obind (try_affect_variable pb ?s) _) (obind (try_affect_variable pb' ?s') _) => assert (R : srel op pb pb' s s') end.
  { pose proof H as (_ & Hv & _ & _ & _ & K). unfold srel. cbn. unfold try_affect_bounded_variable. rewrite Hv. split; [reflexivity|]. split; [reflexivity|].
    destruct op; destruct K as (K & K1 & K2); rewrite ?K1, ?K2; (split; [now apply twin_start|auto]). }
  pose proof (try_affect_related op pb pb' H _ _ R) as P. unfold orel in P.
  match type of P with match ?x with Ok _ => _ | Throw => _ | Crash => _ end => destruct x as [t| |] end; cbn [obind];
    [destruct P as (t' & -> & P)|rewrite P; reflexivity|rewrite P; reflexivity]. cbn [obind]. now apply finish_related.
Qed.
