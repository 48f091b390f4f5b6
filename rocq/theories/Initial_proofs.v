From Coq Require Import Permutation Sorted Lia.
From Verif Require Import Base Problem_model Problem_spec Merged_model Merged_spec Rows_model Rows_spec Solver_model Solver_spec Pool_model Initial_spec.
Open Scope Z_scope.

Section P.
Context {F G : Type} (fo : fops F) (ro : rops G) (std_sort : forall A : Type, (A -> A -> bool) -> list A -> list A).
Hypothesis Hperm : permutes std_sort.
Hypothesis Hsort : sorts std_sort.
Hypothesis Hw : weak_order (fl_lt fo).
Hypothesis Hshuf : shuffles ro.

Lemma total_firstn_S e l t : total (firstn (S t) (e :: l)) = f_factor e + total (firstn t l).
Proof. reflexivity. Qed.

Definition fit (R : list (F * felem)) (sum lo hi : Z) (u : nat) : Prop :=
  (u <= length R)%nat /\ lo <= sum + total (firstn u (map snd R)) <= hi.
Lemma fit_S c e R sum lo hi u : fit ((c, e) :: R) sum lo hi (S u) <-> fit R (sum + f_factor e) lo hi u.
Proof. unfold fit. cbn [length map snd]. rewrite total_firstn_S. split; intros [A B]; (split; [lia|lia]). Qed.
Lemma fit_O R sum lo hi : fit R sum lo hi 0 <-> (lo <=? sum) && (sum <=? hi) = true.
Proof. unfold fit. cbn [firstn total]. rewrite andb_true_iff, !Z.leb_le. split; [lia|]. intros. split; lia. Qed.
Lemma fit_nil sum lo hi u : fit [] sum lo hi u -> u = O.
Proof. intros [A _]. cbn in A. lia. Qed.

Lemma pessimistic_spec lo hi : forall (R : list (F * felem)) t sum,
  (exists u, fit R sum lo hi u /\ (forall w, (w < u)%nat -> ~ fit R sum lo hi w) /\ pessimistic R t sum lo hi = (t + u)%nat) \/
  ((forall w, ~ fit R sum lo hi w) /\ pessimistic R t sum lo hi = O).
Proof.
  induction R as [|[c e] R IH]; intros t sum; cbn [pessimistic]; destruct ((lo <=? sum) && (sum <=? hi)) eqn:E0.
  - left. exists O. split; [apply fit_O; exact E0|]. split; [lia|lia].
  - right. split; [|reflexivity]. intros w H. pose proof (fit_nil _ _ _ _ H). subst. apply fit_O in H. congruence.
  - left. exists O. split; [apply fit_O; exact E0|]. split; [lia|lia].
  - assert (H0 : ~ fit ((c, e) :: R) sum lo hi 0) by (rewrite fit_O; congruence).
    destruct (IH (S t) (sum + f_factor e)) as [(u & A & B & C)|[A B]].
    + left. exists (S u). split; [apply fit_S; exact A|]. split; [|rewrite C; lia].
      intros [|w] Hlt; [exact H0|]. rewrite fit_S. apply B. lia.
    + right. split; [|exact B]. intros [|w]; [exact H0|]. rewrite fit_S. apply A.
Qed.

Definition calm (mode : objective_type) (R : list (F * felem)) (a b : nat) : Prop :=
  forall i c e, (a <= i < b)%nat -> nth_error R i = Some (c, e) -> stops fo mode c = false.
Lemma calm_S mode p R a b : calm mode (p :: R) (S a) (S b) <-> calm mode R a b.
Proof.
  split; intros H i c e Hi Hn.
  - apply (H (S i) c e); [lia|exact Hn].
  - destruct i as [|i]; [lia|]. apply (H i c e); [lia|exact Hn].
Qed.
Lemma calm_cons mode c e R b : stops fo mode c = false -> (calm mode ((c, e) :: R) 0 (S b) <-> calm mode R 0 b).
Proof.
  intros Hs. rewrite <- (calm_S mode (c, e) R 0 b). split; intros H i c' e' Hi Hn; [apply (H i c' e'); [lia|exact Hn]|].
  destruct i as [|i]; [cbn in Hn; inversion Hn; subst; exact Hs|]. apply (H (S i) c' e'); [lia|exact Hn].
Qed.

Lemma optimistic_some mode lo hi : forall (R : list (F * felem)) t sum b,
  (exists u, fit R sum lo hi u /\ calm mode R 0 u /\ (forall w, (u < w)%nat -> ~ (fit R sum lo hi w /\ calm mode R 0 w)) /\
     optimistic fo mode R t sum lo hi (Some b) = (t + u)%nat) \/
  ((forall w, ~ (fit R sum lo hi w /\ calm mode R 0 w)) /\ optimistic fo mode R t sum lo hi (Some b) = b).
Proof.
  induction R as [|[c e] R IH]; intros t sum b; cbn [optimistic].
  - destruct ((lo <=? sum) && (sum <=? hi)) eqn:E0.
    + left. exists O. split; [apply fit_O; exact E0|]. split; [intros i; lia|]. split; [|lia].
      intros w Hlt [H _]. apply fit_nil in H. lia.
    + right. split; [|reflexivity]. intros w [H _]. pose proof (fit_nil _ _ _ _ H). subst. apply fit_O in H. congruence.
  - set (b' := if (lo <=? sum) && (sum <=? hi) then t else b).
    replace (if (lo <=? sum) && (sum <=? hi) then Some t else Some b) with (Some b') by (unfold b'; destruct (_ && _); reflexivity).
    destruct (stops fo mode c) eqn:Es.
    + assert (Hno : forall w, (0 < w)%nat -> ~ (fit ((c, e) :: R) sum lo hi w /\ calm mode ((c, e) :: R) 0 w)).
      { intros w Hlt [_ H]. specialize (H O c e ltac:(lia) eq_refl). congruence. }
      unfold b'. destruct ((lo <=? sum) && (sum <=? hi)) eqn:E0.
      * left. exists O. split; [apply fit_O; exact E0|]. split; [intros i; lia|]. split; [exact Hno|lia].
      * right. split; [|reflexivity]. intros [|w]; [|apply Hno; lia]. intros [H _]. apply fit_O in H. congruence.
    + assert (HS : forall w, (fit ((c, e) :: R) sum lo hi (S w) /\ calm mode ((c, e) :: R) 0 (S w)) <-> (fit R (sum + f_factor e) lo hi w /\ calm mode R 0 w)).
      { intros w. rewrite fit_S, (calm_cons mode c e R w Es). reflexivity. }
      destruct (IH (S t) (sum + f_factor e) b') as [(u & A & B & C & D)|[A B]].
      * left. exists (S u). destruct (proj2 (HS u) (conj A B)) as [P Q]. split; [exact P|]. split; [exact Q|]. split; [|rewrite D; lia].
        intros [|w] Hlt; [lia|]. rewrite HS. apply C. lia.
      * rewrite B. unfold b'. destruct ((lo <=? sum) && (sum <=? hi)) eqn:E0.
        -- left. exists O. split; [apply fit_O; exact E0|]. split; [intros i; lia|]. split; [|lia]. intros [|w] Hlt; [lia|]. rewrite HS. apply A.
        -- right. split; [|reflexivity]. intros [|w]; [|rewrite HS; apply A]. intros [H _]. apply fit_O in H. congruence.
Qed.
Lemma optimistic_none mode lo hi : forall (R : list (F * felem)) t sum,
  (exists f u, fit R sum lo hi f /\ (forall w, (w < f)%nat -> ~ fit R sum lo hi w) /\ (f <= u)%nat /\ fit R sum lo hi u /\ calm mode R f u /\
     (forall w, (u < w)%nat -> ~ (fit R sum lo hi w /\ calm mode R f w)) /\ optimistic fo mode R t sum lo hi None = (t + u)%nat) \/
  ((forall w, ~ fit R sum lo hi w) /\ optimistic fo mode R t sum lo hi None = O).
Proof.
  induction R as [|[c e] R IH]; intros t sum.
  - cbn [optimistic]. destruct ((lo <=? sum) && (sum <=? hi)) eqn:E0.
    + left. exists O, O. split; [apply fit_O; exact E0|]. split; [lia|]. split; [lia|]. split; [apply fit_O; exact E0|]. split; [intros i; lia|]. split; [|lia].
      intros w Hlt [H _]. apply fit_nil in H. lia.
    + right. split; [|reflexivity]. intros w H. pose proof (fit_nil _ _ _ _ H). subst. apply fit_O in H. congruence.
  - destruct ((lo <=? sum) && (sum <=? hi)) eqn:E0.
    + replace (optimistic fo mode ((c, e) :: R) t sum lo hi None) with (optimistic fo mode ((c, e) :: R) t sum lo hi (Some t))
        by (cbn [optimistic]; rewrite E0; reflexivity).
      destruct (optimistic_some mode lo hi ((c, e) :: R) t sum t) as [(u & A & B & C & D)|[A B]].
      * left. exists O, u. split; [apply fit_O; exact E0|]. split; [lia|]. split; [lia|]. tauto.
      * exfalso. apply (A O). split; [apply fit_O; exact E0|intros i; lia].
    + assert (H0 : ~ fit ((c, e) :: R) sum lo hi 0) by (rewrite fit_O; congruence).
      cbn [optimistic]. rewrite E0. destruct (IH (S t) (sum + f_factor e)) as [(f & u & A & B & C & D & P & Q & I)|[A B]].
      * left. exists (S f), (S u). split; [apply fit_S; exact A|]. split; [intros [|w] Hlt; [exact H0|]; rewrite fit_S; apply B; lia|].
        split; [lia|]. split; [apply fit_S; exact D|]. split; [apply calm_S; exact P|]. split; [|rewrite I; lia].
        intros [|w] Hlt; [lia|]. rewrite fit_S, calm_S. apply Q. lia.
      * right. split; [|exact B]. intros [|w]; [exact H0|]. rewrite fit_S. apply A.
Qed.

Definition has_cost (cost : nat -> option F) (p : F * felem) : Prop := cost (f_var (snd p)) = Some (fst p).
Lemma pre_costs_spec cost : forall l R, pre_costs cost l = Some R -> map snd R = l /\ Forall (has_cost cost) R.
Proof.
  induction l as [|e l IH]; intros R H; cbn in H; [inversion H; split; [reflexivity|constructor]|].
  destruct (cost (f_var e)) as [c|] eqn:E; cbn in H; [|discriminate]. destruct (pre_costs cost l) as [R1|]; cbn in H; [|discriminate].
  inversion H. destruct (IH R1 eq_refl) as [A B]. split; [cbn; f_equal; exact A|constructor; assumption].
Qed.
Lemma set_prefix_spec : forall (R : list (F * felem)) t x x', set_prefix R t x = Some x' -> NoDup (map (fun p => f_var (snd p)) R) ->
  length x' = length x /\
  (forall i c e, nth_error R i = Some (c, e) -> nth_error x' (f_var e) = Some (Nat.ltb i t)) /\
  (forall v, ~ In v (map (fun p => f_var (snd p)) R) -> nth_error x' v = nth_error x v).
Proof.
  induction R as [|[c e] R IH]; intros t x x' H Hnd; cbn [set_prefix] in H.
  - inversion H; subst. split; [reflexivity|]. split; [intros [|i]; discriminate|reflexivity].
  - destruct (list_upd x (f_var e) _) as [x1|] eqn:E; cbn [bind] in H; [|discriminate]. cbn [map snd] in Hnd. inversion Hnd as [|? ? Hni Hnd']; subst.
    destruct (IH _ _ _ H Hnd') as (A & B & C). split; [rewrite A; apply (list_upd_length _ _ _ _ E)|]. split.
    + intros [|i] c' e' Hn; cbn in Hn.
      * inversion Hn; subst. rewrite (C _ Hni), (list_upd_nth _ _ _ _ (f_var e') E), Nat.eqb_refl. destruct t; reflexivity.
      * rewrite (B _ _ _ Hn). f_equal. destruct t; cbn [Nat.pred]; [reflexivity|]. unfold Nat.ltb. reflexivity.
    + intros v Hv. cbn [map snd In] in Hv. rewrite C by tauto. rewrite (list_upd_nth _ _ _ _ v E). destruct (Nat.eqb v (f_var e)) eqn:Ev; [|reflexivity].
      apply Nat.eqb_eq in Ev. subst. tauto.
Qed.

Section One.
Variables (mode : objective_type) (cost : nat -> option F) (c : merged).
Let lt (a b : F * felem) := match mode with minimize => fl_lt fo (fst a) (fst b) | maximize => fl_lt fo (fst b) (fst a) end.

Lemma sorted_best_first R : Forall (has_cost cost) R -> StronglySorted (fun a b => lt b a = false) R ->
  StronglySorted (fun d e => forall a b, cost (f_var d) = Some a -> cost (f_var e) = Some b -> ~ preferred fo mode b a) (map snd R).
Proof.
  intros Hc Hs. induction Hs as [|[p d] R Hs IH Hf]; cbn [map snd]; [constructor|]. inversion Hc as [|? ? Hp Hc']; subst.
  constructor; [apply IH; exact Hc'|]. rewrite Forall_map, Forall_forall. rewrite Forall_forall in Hf, Hc'.
  intros [q e] Hin a b Ha Hb. specialize (Hf _ Hin). specialize (Hc' _ Hin). unfold has_cost in *. cbn [fst snd] in *.
  rewrite Hp in Ha. rewrite Hc' in Hb. injection Ha as <-. injection Hb as <-. unfold preferred, lt in *. cbn [fst] in Hf. destruct mode; congruence.
Qed.
Lemma lt_weak : (forall a, lt a a = false) /\ (forall a b c, lt a b = true -> lt b c = true -> lt a c = true) /\
  (forall a b c, lt a b = false -> lt b c = false -> lt a c = false).
Proof.
  destruct Hw as (A & B & C). unfold lt. destruct mode; split; [|split| |split]; intros; eauto.
Qed.

Lemma fit_enough R u : fit R 0 (m_min c) (m_max c) u <-> enough c (map snd R) u.
Proof. unfold fit, enough. rewrite map_length, Z.add_0_l. reflexivity. Qed.
Lemma calm_worse R a b : Forall (has_cost cost) R -> (calm mode R a b <-> ~ worse_between fo mode cost (map snd R) a b).
Proof.
  intros Hc. rewrite Forall_forall in Hc. unfold calm, worse_between. split.
  - intros H (i & e & v & Hi & Hn & Hv & Hm). rewrite nth_error_map in Hn. destruct (nth_error R i) as [[q d]|] eqn:E; [|discriminate].
    cbn in Hn. injection Hn as ->. pose proof (Hc _ (nth_error_In _ _ E)) as Hq. unfold has_cost in Hq. cbn in Hq. rewrite Hq in Hv. injection Hv as <-.
    specialize (H _ _ _ Hi E). unfold stops, makes_worse in *. destruct mode; congruence.
  - intros H i q e Hi Hn. destruct (stops fo mode q) eqn:E; [|reflexivity]. exfalso. apply H. exists i, e, q. split; [exact Hi|].
    split; [rewrite nth_error_map, Hn; reflexivity|]. split; [exact (Hc _ (nth_error_In _ _ Hn))|]. unfold stops, makes_worse in *. destruct mode; exact E.
Qed.
Lemma calm_dec mode' R a b : (calm mode' R a b) \/ ~ (calm mode' R a b).
Proof.
  destruct (existsb (fun i => match nth_error R i with Some (q, _) => stops fo mode' q | None => false end) (seq a (b - a))) eqn:E.
  - right. apply existsb_exists in E. destruct E as (i & Hi & Hs). apply in_seq in Hi. destruct (nth_error R i) as [[q e]|] eqn:En; [|discriminate].
    intros H. specialize (H i q e ltac:(lia) En). congruence.
  - left. intros i q e Hi Hn. destruct (stops fo mode' q) eqn:Es; [|reflexivity].
    assert (existsb (fun i => match nth_error R i with Some (q, _) => stops fo mode' q | None => false end) (seq a (b - a)) = true) as X; [|congruence].
    apply existsb_exists. exists i. split; [apply in_seq; lia|]. rewrite Hn. exact Es.
Qed.

Lemma chosen_spec (opt : bool) R : Forall (has_cost cost) R ->
  chosen fo mode cost opt c (map snd R) (if opt then optimistic fo mode R 0 0 (m_min c) (m_max c) None else pessimistic R 0 0 (m_min c) (m_max c)).
Proof.
  intros Hc. unfold chosen. destruct opt.
  - destruct (optimistic_none mode (m_min c) (m_max c) R 0 0) as [(f & u & A & B & C & D & P & Q & I)|[A B]].
    + right. rewrite I. cbn [Nat.add]. exists f. split; [split; [apply fit_enough; exact A|intros w Hlt H; apply (B w Hlt); apply fit_enough; exact H]|].
      split; [exact C|]. split; [apply fit_enough; exact D|]. split; [apply (calm_worse R f u Hc); exact P|].
      intros w Hlt Hen. destruct (calm_dec mode R f w) as [H|H].
      * exfalso. apply (Q w Hlt). split; [apply fit_enough; exact Hen|exact H].
      * unfold calm in H. destruct (existsb (fun i => match nth_error R i with Some (q, _) => stops fo mode q | None => false end) (seq f (w - f))) eqn:E.
        -- apply existsb_exists in E. destruct E as (i & Hi & Hs). apply in_seq in Hi. destruct (nth_error R i) as [[q e]|] eqn:En; [|discriminate].
           rewrite Forall_forall in Hc. exists i, e, q. split; [lia|]. split; [rewrite nth_error_map, En; reflexivity|].
           split; [exact (Hc _ (nth_error_In _ _ En))|]. unfold stops, makes_worse in *. destruct mode; exact Hs.
        -- exfalso. apply H. intros i q e Hi Hn. destruct (stops fo mode q) eqn:Es; [|reflexivity].
           assert (existsb (fun i => match nth_error R i with Some (q, _) => stops fo mode q | None => false end) (seq f (w - f)) = true) as X; [|congruence].
           apply existsb_exists. exists i. split; [apply in_seq; lia|]. rewrite Hn. exact Es.
    + left. split; [intros w H; apply (A w); apply fit_enough; exact H|exact B].
  - destruct (pessimistic_spec (m_min c) (m_max c) R 0 0) as [(u & A & B & C)|[A B]].
    + right. rewrite C. cbn [Nat.add]. split; [apply fit_enough; exact A|]. intros w Hlt H. apply (B w Hlt). apply fit_enough. exact H.
    + left. split; [intros w H; apply (A w); apply fit_enough; exact H|exact B].
Qed.

Lemma solve_one (opt : bool) R0 R g x x' : NoDup (map f_var (m_elements c)) -> pre_costs cost (m_elements c) = Some R0 -> R = std_sort _ lt (fst (rg_shuffle ro _ g R0)) ->
  set_prefix R (if opt then optimistic fo mode R 0 0 (m_min c) (m_max c) None else pessimistic R 0 0 (m_min c) (m_max c)) x = Some x' ->
  solved fo mode cost opt c x x'.
Proof.
  intros Hnd H0 HR H. destruct (pre_costs_spec _ _ _ H0) as [M0 C0].
  assert (HP : Permutation R R0) by (subst R; eapply Permutation_trans; [apply Hperm|apply Hshuf]).
  assert (HC : Forall (has_cost cost) R) by (eapply Permutation_Forall; [apply Permutation_sym; exact HP|exact C0]).
  assert (HM : Permutation (map snd R) (m_elements c)) by (rewrite <- M0; apply Permutation_map; exact HP).
  assert (HV : Permutation (map (fun p => f_var (snd p)) R) (map f_var (m_elements c))).
  { rewrite <- (map_map snd f_var). apply Permutation_map. exact HM. }
  destruct lt_weak as (L1 & L2 & L3).
  destruct (set_prefix_spec R _ x x' H) as (A & B & C). { eapply Permutation_NoDup; [apply Permutation_sym; exact HV|exact Hnd]. }
  exists (map snd R). eexists. split; [split; [exact HM|]|]. { apply sorted_best_first; [exact HC|]. subst R. apply Hsort; assumption. }
  split; [apply chosen_spec; exact HC|]. split; [exact A|]. split.
  - intros i e Hn. rewrite nth_error_map in Hn. destruct (nth_error R i) as [[q d]|] eqn:E; [|discriminate]. cbn in Hn. injection Hn as ->. exact (B _ _ _ E).
  - intros v Hv. apply C. intros Hin. apply Hv. eapply Permutation_in; [exact HV|exact Hin].
Qed.
End One.

Lemma pre_solve_in_turn every mode opt cost : forall cs x g x' g', (forall c, In c cs -> NoDup (map f_var (m_elements c))) ->
  pre_solve fo ro std_sort every mode opt cost cs x g = Some (x', g') ->
  exists drawn, solved_in_turn fo mode cost opt drawn cs x x' /\ (every = true -> drawn = repeat true (length cs)).
Proof.
  induction cs as [|c cs IH]; intros x g x' g' Hnd H; cbn [pre_solve] in H.
  - inversion H; subst. exists []. split; [constructor|reflexivity].
  - destruct (rg_bernoulli ro g) as [go g1]. destruct (every || go) eqn:Eg.
    + destruct (pre_costs cost (m_elements c)) as [R0|] eqn:E0; cbn [bind] in H; [|discriminate].
      destruct (rg_shuffle ro _ g1 R0) as [R1 g2] eqn:Es. cbv zeta in H.
      match type of H with context [set_prefix ?a ?b x] => destruct (set_prefix a b x) as [x1|] eqn:E1; cbn [bind] in H; [|discriminate] end.
      destruct (IH _ _ _ _ (fun d Hd => Hnd d (or_intror Hd)) H) as (dr & A & B). exists (true :: dr). split.
      * econstructor; [|exact A]. eapply (solve_one mode cost c opt R0 _ g1 x x1 (Hnd c (or_introl eq_refl)) E0); [reflexivity|]. rewrite Es. cbn [fst].
        exact E1.
      * intros He. rewrite (B He). reflexivity.
    + destruct (IH _ _ _ _ (fun d Hd => Hnd d (or_intror Hd)) H) as (dr & A & B). exists (false :: dr). split; [constructor; exact A|].
      intros ->. discriminate.
Qed.

Lemma mutate_flips : forall x g, exists flips, length flips = length x /\ fst (mutate ro x g) = map (fun p => xorb (fst p) (snd p)) (combine flips x).
Proof.
  induction x as [|b x IH]; intros g; cbn [mutate]; [exists []; split; reflexivity|].
  destruct (rg_bernoulli ro g) as [m g1]. destruct (IH g1) as (fl & A & B). destruct (mutate ro x g1) as [r g2]. cbn [fst] in *. subst r.
  exists (m :: fl). split; [cbn; lia|]. cbn [combine map fst snd]. f_equal. destruct m, b; reflexivity.
Qed.
Lemma both_in_turn mode cost : forall cs xp xo g xp' xo' g', (forall c, In c cs -> NoDup (map f_var (m_elements c))) ->
  pre_solve_both fo ro std_sort mode cost cs xp xo g = Some (xp', xo', g') ->
  exists drawn, solved_in_turn fo mode cost false drawn cs xp xp' /\ solved_in_turn fo mode cost true drawn cs xo xo'.
Proof.
  induction cs as [|c cs IH]; intros xp xo g xp' xo' g' Hnd H; cbn [pre_solve_both] in H.
  - inversion H; subst. exists []. split; constructor.
  - destruct (rg_bernoulli ro g) as [go g1]. destruct go.
    + destruct (pre_costs cost (m_elements c)) as [R0|] eqn:E0; cbn [bind] in H; [|discriminate].
      destruct (rg_shuffle ro _ g1 R0) as [R1 g2] eqn:Es. cbv zeta in H.
      match type of H with context [set_prefix ?a ?b xp] => destruct (set_prefix a b xp) as [x1|] eqn:E1; cbn [bind] in H; [|discriminate] end.
      match type of H with context [set_prefix ?a ?b xo] => destruct (set_prefix a b xo) as [x2|] eqn:E2; cbn [bind] in H; [|discriminate] end.
      destruct (IH _ _ _ _ _ _ (fun d Hd => Hnd d (or_intror Hd)) H) as (dr & A & B). exists (true :: dr). split; (econstructor; [|eassumption]).
      * eapply (solve_one mode cost c false R0 _ g1 xp x1 (Hnd c (or_introl eq_refl)) E0); [reflexivity|]. rewrite Es. cbn [fst]. exact E1.
      * eapply (solve_one mode cost c true R0 _ g1 xo x2 (Hnd c (or_introl eq_refl)) E0); [reflexivity|]. rewrite Es. cbn [fst]. exact E2.
    + destruct (IH _ _ _ _ _ _ (fun d Hd => Hnd d (or_intror Hd)) H) as (dr & A & B). exists (false :: dr). split; constructor; assumption.
Qed.
Lemma bastert_spec mode cost : forall k i x x', init_bastert fo mode cost k i x = Some x' -> length x' = length x /\
  (forall v, (v < i)%nat -> nth_error x' v = nth_error x v) /\
  (forall v, (i <= v < i + k)%nat -> exists a, cost v = Some a /\ nth_error x' v = Some (init_x fo mode a)).
Proof.
  induction k as [|k IH]; intros i x x' H; cbn [init_bastert] in H.
  - inversion H; subst. split; [reflexivity|]. split; [reflexivity|]. intros v Hv. lia.
  - destruct (cost i) as [a|] eqn:Ec; cbn [bind] in H; [|discriminate]. destruct (list_upd x i _) as [x1|] eqn:E; cbn [bind] in H; [|discriminate].
    destruct (IH _ _ _ H) as (A & B & C). split; [rewrite A; apply (list_upd_length _ _ _ _ E)|]. split.
    + intros v Hv. rewrite B by lia. rewrite (list_upd_nth _ _ _ _ v E). destruct (Nat.eqb v i) eqn:Ev; [apply Nat.eqb_eq in Ev; lia|reflexivity].
    + intros v Hv. destruct (Nat.eq_dec v i) as [->|Hne]; [|apply C; lia]. exists a. split; [exact Ec|]. rewrite B by lia.
      rewrite (list_upd_nth _ _ _ _ i E), Nat.eqb_refl. reflexivity.
Qed.
Lemma mutate_never : (forall g, fst (rg_bernoulli ro g) = false) -> forall x g, fst (mutate ro x g) = x.
Proof.
  intros Hn. induction x as [|b x IH]; intros g; cbn [mutate]; [reflexivity|]. specialize (Hn g). destruct (rg_bernoulli ro g) as [m g1]. cbn in Hn. subst m.
  specialize (IH g1). destruct (mutate ro x g1) as [r g2]. cbn in *. congruence.
Qed.
Lemma initial_x_starts ip mode cost cs n g x g' : (forall c, In c cs -> NoDup (map f_var (m_elements c))) ->
  initial_x fo ro std_sort ip mode cost cs n g = Some (x, g') ->
  exists y flips, starts_with fo mode cost ip cs n y /\ inverted flips y x /\ ((forall g, fst (rg_bernoulli ro g) = false) -> x = y).
Proof.
  intros Hnd H. unfold initial_x in H.
  match type of H with (do (a, b) <- ?m; _) = _ => destruct m as [[y g1]|] eqn:E; cbn [bind] in H; [|discriminate] end.
  destruct (mutate_flips y g1) as (fl & A & B). injection H as Hm. rewrite Hm in B. cbn [fst] in B.
  exists y, fl. split; [|split; [split; assumption|intros Hn; pose proof (mutate_never Hn y g1) as X; rewrite Hm in X; exact X]].
  destruct ip; cbn [starts_with].
  - destruct (init_bastert fo mode cost n 0 (repeat false n)) as [z|] eqn:Eb; cbn [bind] in E; [|discriminate]. injection E as -> ->.
    destruct (bastert_spec _ _ _ _ _ _ Eb) as (P & _ & Q). split; [rewrite P; apply repeat_length|]. intros v Hv.
    destruct (Q v ltac:(lia)) as (a & Ha & Hb). rewrite Hb. unfold init_x, makes_better. split.
    + intros X. injection X as X. exists a. split; [exact Ha|]. destruct mode; exact X.
    + intros (a' & Ha' & X). rewrite Ha in Ha'. injection Ha' as <-. destruct mode; rewrite X; reflexivity.
  - destruct (pre_solve_in_turn true mode false cost cs _ _ _ _ Hnd E) as (dr & P & Q). rewrite (Q eq_refl) in P. exact P.
  - destruct (pre_solve_in_turn true mode true cost cs _ _ _ _ Hnd E) as (dr & P & Q). rewrite (Q eq_refl) in P. exact P.
Qed.
End P.

(** Satisfaction *)
Lemma total_app a b : total (a ++ b) = total a + total b.
Proof. induction a as [|e a IH]; cbn [total app]; lia. Qed.
Lemma lhs_perm x l l' : Permutation l l' -> lhs x l = lhs x l'.
Proof. induction 1; cbn [lhs]; lia. Qed.
Lemma lhs_prefix x : forall l t, (forall i e, nth_error l i = Some e -> x (f_var e) = Nat.ltb i t) -> lhs x l = total (firstn t l).
Proof.
  induction l as [|e l IH]; intros t H; cbn [lhs]; [destruct t; reflexivity|].
  rewrite (H O e eq_refl). destruct t as [|t].
  - cbn [firstn total Nat.ltb Nat.leb bz]. rewrite (IH O); [cbn; lia|]. intros i d Hn. rewrite (H (S i) d Hn). reflexivity.
  - cbn [firstn total]. replace (Nat.ltb 0 (S t)) with true by reflexivity. cbn [bz]. rewrite (IH t); [lia|].
    intros i d Hn. rewrite (H (S i) d Hn). reflexivity.
Qed.
Lemma lhs_ext x y l : (forall e, In e l -> x (f_var e) = y (f_var e)) -> lhs x l = lhs y l.
Proof. induction l as [|e l IH]; intros H; cbn [lhs]; [reflexivity|]. rewrite (H e (or_introl eq_refl)), IH; [reflexivity|]. intros; apply H; right; assumption. Qed.
Lemma total_ones l : (forall e, In e l -> f_factor e = 1) -> total l = Z.of_nat (length l).
Proof. induction l as [|e l IH]; intros H; cbn [total length]; [reflexivity|]. rewrite (H e (or_introl eq_refl)), IH by (intros; apply H; right; assumption). lia. Qed.
Lemma lhs_ones x l : (forall e, In e l -> f_factor e = 1) -> 0 <= lhs x l <= Z.of_nat (length l).
Proof.
  induction l as [|e l IH]; intros H; cbn [lhs length]; [lia|]. rewrite (H e (or_introl eq_refl)).
  assert (0 <= lhs x l <= Z.of_nat (length l)) by (apply IH; intros; apply H; right; assumption). destruct (x (f_var e)); cbn [bz]; lia.
Qed.

Section Sat.
Context {F : Type} (fo : fops F) (mode : objective_type) (cost : nat -> option F) (opt : bool).
Lemma solved_satisfied c x x' : (forall l, best_first fo mode cost c l -> exists t, enough c l t) -> solved fo mode cost opt c x x' -> row_satisfied x' c.
Proof.
  intros He (l & t & [Hp Hs] & Hc & Hl & Hn & _). unfold row_satisfied.
  assert (HL : lhs (as_assignment x') (m_elements c) = total (firstn t l)).
  { rewrite <- (lhs_perm _ _ _ Hp). apply lhs_prefix. intros i e H. unfold as_assignment. apply nth_error_nth. exact (Hn _ _ H). }
  rewrite HL. destruct (He l (conj Hp Hs)) as [u Hu]. destruct Hc as [[Hc _]|Hc]; [exfalso; exact (Hc _ Hu)|].
  destruct opt; [destruct Hc as (f & _ & _ & [_ X] & _)|destruct Hc as [[_ X] _]]; exact X.
Qed.
Lemma kept drawn cs x x' c : solved_in_turn fo mode cost opt drawn cs x x' -> shares_none c cs ->
  forall v, In v (map f_var (m_elements c)) -> nth_error x' v = nth_error x v.
Proof.
  induction 1 as [x|d x x1 dr cs x' Hs Hi IH|d x dr cs x' Hi IH]; intros Hsh v Hv; [reflexivity| |].
  - rewrite IH; [|intros d' w Hd; apply Hsh; right; exact Hd|exact Hv]. destruct Hs as (l & t & _ & _ & _ & _ & K). apply K. apply (Hsh d); [left; reflexivity|exact Hv].
  - apply IH; [intros d' w Hd; apply Hsh; right; exact Hd|exact Hv].
Qed.
Lemma kept_satisfied drawn cs x x' c : solved_in_turn fo mode cost opt drawn cs x x' -> shares_none c cs -> row_satisfied x c -> row_satisfied x' c.
Proof.
  intros Hi Hsh H. unfold row_satisfied. rewrite (lhs_ext _ (as_assignment x)); [exact H|].
  intros e He. unfold as_assignment. pose proof (kept _ _ _ _ _ Hi Hsh (f_var e) (in_map _ _ _ He)) as K.
  destruct (nth_error x (f_var e)) eqn:E.
  - rewrite (nth_error_nth _ _ _ K), (nth_error_nth _ _ _ E). reflexivity.
  - rewrite !nth_overflow; [reflexivity|apply nth_error_None; exact E|apply nth_error_None; exact K].
Qed.
Lemma turn_satisfied : forall before drawn c after x x', solved_in_turn fo mode cost opt drawn (before ++ c :: after) x x' ->
  nth_error drawn (length before) = Some true -> shares_none c after -> (forall l, best_first fo mode cost c l -> exists t, enough c l t) -> row_satisfied x' c.
Proof.
  induction before as [|b before IH]; intros drawn c after x x' H Hd Hsh He; cbn [app] in H; inversion H; subst; cbn [length nth_error] in Hd; try discriminate.
  - eapply kept_satisfied; [eassumption|exact Hsh|]. eapply solved_satisfied; eassumption.
  - eapply IH; eassumption.
  - eapply IH; eassumption.
Qed.
Lemma ones_enough c l : (forall e, In e (m_elements c) -> f_factor e = 1) -> row_satisfiable c -> Permutation l (m_elements c) -> exists t, enough c l t.
Proof.
  intros H1 [x Hx] Hp. pose proof (lhs_ones x _ H1) as Hb. exists (Z.to_nat (lhs x (m_elements c))). unfold enough.
  rewrite (Permutation_length Hp). split; [lia|]. rewrite total_ones.
  - rewrite firstn_length, (Permutation_length Hp). lia.
  - intros e He. apply H1. eapply Permutation_in; [exact Hp|]. rewrite <- (firstn_skipn (Z.to_nat (lhs x (m_elements c))) l). apply in_or_app. left. exact He.
Qed.
End Sat.

(** The number of variables set when the coefficients are 1. *)
Lemma filter_perm {A} (f : A -> bool) l l' : Permutation l l' -> length (filter f l) = length (filter f l').
Proof. induction 1; cbn [filter]; repeat (match goal with |- context [if f ?a then _ else _] => destruct (f a) end); cbn [length]; congruence. Qed.
Lemma filter_length {A} (f : A -> bool) l : (length (filter f l) <= length l)%nat.
Proof. induction l as [|a l IH]; cbn [filter length]; [lia|]. destruct (f a); cbn [length]; lia. Qed.
Lemma sorted_prefix {A} (f : A -> bool) l : StronglySorted (fun d e => f e = true -> f d = true) l ->
  forall i e, nth_error l i = Some e -> (f e = true <-> (i < length (filter f l))%nat).
Proof.
  induction 1 as [|a l Hs IH Hf]; intros i e Hn; [destruct i; discriminate|]. cbn [filter]. destruct (f a) eqn:Ea.
  - destruct i as [|i]; cbn in Hn |- *; [injection Hn as <-; split; [lia|trivial]|]. rewrite (IH i e Hn). lia.
  - assert (H0 : filter f l = []).
    { rewrite Forall_forall in Hf. clear -Hf Ea. induction l as [|b l IH]; cbn [filter]; [reflexivity|].
      destruct (f b) eqn:Eb; [pose proof (Hf b (or_introl eq_refl) Eb); congruence|]. apply IH. intros x Hx. apply Hf. right. exact Hx. }
    rewrite H0. cbn [length]. split; [|lia]. intros He. exfalso. destruct i as [|i]; cbn in Hn; [congruence|].
    rewrite Forall_forall in Hf. specialize (Hf e (nth_error_In _ _ Hn) He). congruence.
Qed.

Section Count.
Context {F : Type} (fo : fops F) (mode : objective_type) (cost : nat -> option F) (opt : bool).
Hypothesis Hw : weak_order (fl_lt fo).
Lemma harmless_sorted l : (forall e, In e l -> exists a, cost (f_var e) = Some a) ->
  StronglySorted (fun d e => forall a b, cost (f_var d) = Some a -> cost (f_var e) = Some b -> ~ preferred fo mode b a) l ->
  StronglySorted (fun d e => harmless fo mode cost e = true -> harmless fo mode cost d = true) l.
Proof.
  intros Hc. induction 1 as [|d l Hs IH Hf]; constructor; [apply IH; intros; apply Hc; right; assumption|].
  rewrite Forall_forall in *. intros e He Hh. destruct (Hc d (or_introl eq_refl)) as [a Ha]. destruct (Hc e (or_intror He)) as [b Hb].
  specialize (Hf e He a b Ha Hb). unfold harmless, preferred in *. rewrite Ha. rewrite Hb in Hh. destruct Hw as (_ & _ & W).
  destruct mode; apply negb_true_iff in Hh; apply negb_true_iff.
  - apply (W _ b); [apply not_true_is_false; exact Hf|exact Hh].
  - apply (W _ b); [exact Hh|apply not_true_is_false; exact Hf].
Qed.
Lemma worse_harmless l a b : (forall e, In e l -> exists q, cost (f_var e) = Some q) ->
  StronglySorted (fun d e => harmless fo mode cost e = true -> harmless fo mode cost d = true) l -> (b <= length l)%nat ->
  (worse_between fo mode cost l a b <-> (a < b)%nat /\ (length (filter (harmless fo mode cost) l) < b)%nat).
Proof.
  intros Hc Hs Hb. pose proof (sorted_prefix _ _ Hs) as P. split.
  - intros (i & e & v & Hi & Hn & Hv & Hm). split; [lia|]. destruct (le_lt_dec b (length (filter (harmless fo mode cost) l))) as [H|H]; [|exact H].
    exfalso. assert (X : harmless fo mode cost e = true) by (apply (P i e Hn); lia). unfold harmless, makes_worse in *. rewrite Hv in X.
    destruct mode; rewrite Hm in X; discriminate.
  - intros [Hab Hk]. destruct (nth_error l (b - 1)) as [e|] eqn:En; [|apply nth_error_None in En; lia].
    destruct (Hc e (nth_error_In _ _ En)) as [q Hq]. exists (b - 1)%nat, e, q. split; [lia|]. split; [exact En|]. split; [exact Hq|].
    assert (X : harmless fo mode cost e <> true) by (rewrite (P _ e En); lia). apply not_true_is_false in X.
    unfold harmless, makes_worse in *. rewrite Hq in X. destruct mode; apply negb_false_iff in X; exact X.
Qed.
Lemma solved_count c x x' : (forall e, In e (m_elements c) -> f_factor e = 1) -> (forall e, In e (m_elements c) -> exists a, cost (f_var e) = Some a) ->
  row_satisfiable c -> solved fo mode cost opt c x x' ->
  lhs (as_assignment x') (m_elements c) = if opt then Z.max (Z.max 0 (m_min c)) (Z.min (m_max c) (harmless_number fo mode cost c)) else Z.max 0 (m_min c).
Proof.
  intros H1 Hc [y Hy] (l & t & [Hp Hs] & Hch & Hl & Hn & _). pose proof (lhs_ones y _ H1) as Hb.
  assert (HL : lhs (as_assignment x') (m_elements c) = total (firstn t l)).
  { rewrite <- (lhs_perm _ _ _ Hp). apply lhs_prefix. intros i e H. unfold as_assignment. apply nth_error_nth. exact (Hn _ _ H). }
  pose proof (Permutation_length Hp) as Hlen.
  assert (HT : forall u, (u <= length l)%nat -> total (firstn u l) = Z.of_nat u).
  { intros u Hu. rewrite total_ones; [rewrite firstn_length; lia|]. intros e He. apply H1. eapply Permutation_in; [exact Hp|].
    rewrite <- (firstn_skipn u l). apply in_or_app. left. exact He. }
  assert (HE : forall u, enough c l u <-> (u <= length l)%nat /\ m_min c <= Z.of_nat u <= m_max c).
  { intros u. unfold enough. split; intros [A B]; (split; [exact A|]); [rewrite (HT u A) in B; exact B|rewrite (HT u A); exact B]. }
  assert (HF : forall f, first_enough c l f -> Z.of_nat f = Z.max 0 (m_min c)).
  { intros f [A B]. apply HE in A. destruct (Z.eq_dec (Z.of_nat f) (Z.max 0 (m_min c))) as [E|E]; [exact E|].
    exfalso. apply (B (Z.to_nat (Z.max 0 (m_min c)))); [lia|]. apply HE. lia. }
  rewrite HL. destruct Hch as [[Hno _]|Hch].
  { exfalso. apply (Hno (Z.to_nat (lhs y (m_elements c)))). apply HE. lia. }
  destruct opt.
  - destruct Hch as (f & Hf & Hft & Ht & Hnw & Hmax). pose proof (HF f Hf) as Ef. apply HE in Ht. rewrite HT by lia.
    assert (Hcl : forall e, In e l -> exists a, cost (f_var e) = Some a) by (intros e He; apply Hc; eapply Permutation_in; [exact Hp|exact He]).
    pose proof (harmless_sorted l Hcl Hs) as Hhs. unfold harmless_number. rewrite <- (filter_perm (harmless fo mode cost) _ _ Hp).
    pose proof (filter_length (harmless fo mode cost) l) as Hk. set (k := length (filter (harmless fo mode cost) l)) in *.
    rewrite (worse_harmless l f t Hcl Hhs) in Hnw by lia. fold k in Hnw.
    destruct (Z.eq_dec (Z.of_nat t) (Z.max (Z.max 0 (m_min c)) (Z.min (m_max c) (Z.of_nat k)))) as [E|E]; [exact E|]. exfalso.
    set (u := Z.to_nat (Z.max (Z.max 0 (m_min c)) (Z.min (m_max c) (Z.of_nat k)))).
    assert (Hu : (t < u)%nat) by (unfold u; lia).
    assert (Hue : enough c l u) by (apply HE; unfold u; lia).
    specialize (Hmax u Hu Hue). rewrite (worse_harmless l f u Hcl Hhs) in Hmax by (apply HE in Hue; lia). fold k in Hmax. unfold u in *. lia.
  - pose proof (HF t Hch) as Et. destruct Hch as [Ht _]. apply HE in Ht. rewrite HT by lia. exact Et.
Qed.
Lemma kept_lhs drawn cs x x' c : solved_in_turn fo mode cost opt drawn cs x x' -> shares_none c cs ->
  forall e, In e (m_elements c) -> as_assignment x' (f_var e) = as_assignment x (f_var e).
Proof.
  intros Hi Hsh e He. unfold as_assignment. pose proof (kept fo mode cost opt _ _ _ _ _ Hi Hsh (f_var e) (in_map _ _ _ He)) as K.
  destruct (nth_error x (f_var e)) eqn:E.
  - rewrite (nth_error_nth _ _ _ K), (nth_error_nth _ _ _ E). reflexivity.
  - rewrite !nth_overflow; [reflexivity|apply nth_error_None; exact E|apply nth_error_None; exact K].
Qed.
Lemma turn_solved : forall before drawn c after x x', solved_in_turn fo mode cost opt drawn (before ++ c :: after) x x' ->
  nth_error drawn (length before) = Some true -> shares_none c after ->
  exists x0 x1, solved fo mode cost opt c x0 x1 /\ forall e, In e (m_elements c) -> as_assignment x' (f_var e) = as_assignment x1 (f_var e).
Proof.
  induction before as [|b before IH]; intros drawn c after x x' H Hd Hsh; cbn [app] in H; inversion H; subst; cbn [length nth_error] in Hd; try discriminate.
  - eexists _, _. split; [eassumption|]. eapply kept_lhs; eassumption.
  - eapply IH; eassumption.
  - eapply IH; eassumption.
Qed.
End Count.

(** The optimistic start is best on each independent constraint with coefficients 1. *)
Section Best.
Variable w : nat -> Z.
Fixpoint heavy (l : list felem) : Z := match l with [] => 0 | e :: l' => w (f_var e) + heavy l' end.
Lemma heavy_app a b : heavy (a ++ b) = heavy a + heavy b.
Proof. induction a as [|e a IH]; cbn [heavy app]; lia. Qed.
Lemma weigh_perm x l l' : Permutation l l' -> weigh w x l = weigh w x l'.
Proof. induction 1; cbn [weigh]; lia. Qed.
Lemma weigh_ext x y l : (forall e, In e l -> x (f_var e) = y (f_var e)) -> weigh w x l = weigh w y l.
Proof. induction l as [|e l IH]; intros H; cbn [weigh]; [reflexivity|]. rewrite (H e (or_introl eq_refl)), IH; [reflexivity|]. intros; apply H; right; assumption. Qed.
Lemma weigh_prefix x : forall l t, (forall i e, nth_error l i = Some e -> x (f_var e) = Nat.ltb i t) -> weigh w x l = heavy (firstn t l).
Proof.
  induction l as [|e l IH]; intros t H; cbn [weigh]; [destruct t; reflexivity|].
  rewrite (H O e eq_refl). destruct t as [|t].
  - cbn [firstn heavy Nat.ltb Nat.leb bz]. rewrite (IH O); [cbn; lia|]. intros i d Hn. rewrite (H (S i) d Hn). reflexivity.
  - cbn [firstn heavy]. replace (Nat.ltb 0 (S t)) with true by reflexivity. cbn [bz]. rewrite (IH t); [lia|].
    intros i d Hn. rewrite (H (S i) d Hn). reflexivity.
Qed.
Lemma firstn_next {A} (l : list A) i e : nth_error l i = Some e -> firstn (S i) l = firstn i l ++ [e].
Proof. revert i; induction l as [|a l IH]; intros [|i] H; cbn in H |- *; try discriminate; [injection H as ->; reflexivity|]. f_equal. exact (IH i H). Qed.
Lemma light_first d l s : Forall (fun e => w (f_var d) <= w (f_var e)) l -> (s <= length l)%nat -> heavy (firstn s (d :: l)) <= heavy (firstn s l).
Proof.
  intros Hf Hs. destruct s as [|s]; [cbn; lia|]. destruct (nth_error l s) as [e|] eqn:E; [|apply nth_error_None in E; lia].
  rewrite (firstn_next l s e E), heavy_app. cbn [firstn heavy]. rewrite Forall_forall in Hf. specialize (Hf e (nth_error_In _ _ E)). cbn beta in Hf. lia.
Qed.
Lemma prefix_lightest y : forall l, StronglySorted (fun d e => w (f_var d) <= w (f_var e)) l -> (forall e, In e l -> f_factor e = 1) ->
  heavy (firstn (Z.to_nat (lhs y l)) l) <= weigh w y l.
Proof.
  induction 1 as [|d l Hs IH Hf]; intros H1; [cbn; lia|].
  assert (H1' : forall e, In e l -> f_factor e = 1) by (intros; apply H1; right; assumption). specialize (IH H1').
  pose proof (lhs_ones y l H1') as Hb. cbn [lhs weigh]. rewrite (H1 d (or_introl eq_refl)). destruct (y (f_var d)); cbn [bz].
  - replace (Z.to_nat (1 * 1 + lhs y l)) with (S (Z.to_nat (lhs y l))) by lia. cbn [firstn heavy]. lia.
  - replace (1 * 0 + lhs y l) with (lhs y l) by lia. pose proof (light_first d l (Z.to_nat (lhs y l)) Hf ltac:(lia)). lia.
Qed.
Lemma heavy_between (P : Z -> Prop) : (P 0) -> (forall a b, P a -> P b -> P (a + b)) -> forall l s t, (s <= t <= length l)%nat ->
  (forall i e, (s <= i < t)%nat -> nth_error l i = Some e -> P (w (f_var e))) -> P (heavy (firstn t l) - heavy (firstn s l)).
Proof.
  intros P0 Pa l s t [Hst Ht]. induction t as [|t IH]; intros H; [replace s with O by lia; rewrite Z.sub_diag; exact P0|].
  destruct (Nat.eq_dec s (S t)) as [->|Hne]; [rewrite Z.sub_diag; exact P0|].
  destruct (nth_error l t) as [e|] eqn:E; [|apply nth_error_None in E; lia]. rewrite (firstn_next l t e E), heavy_app. cbn [heavy].
  replace (heavy (firstn t l) + (w (f_var e) + 0) - heavy (firstn s l)) with ((heavy (firstn t l) - heavy (firstn s l)) + w (f_var e)) by lia.
  apply Pa; [apply IH; [lia|lia|]|apply (H t e); [lia|exact E]]. intros i d Hi. apply H. lia.
Qed.
(** [t] is as C164_how_many says; [k] variables have a weight of at most 0. *)
Lemma best_prefix l k t lo hi y : StronglySorted (fun d e => w (f_var d) <= w (f_var e)) l -> (forall e, In e l -> f_factor e = 1) ->
  (forall i e, nth_error l i = Some e -> (w (f_var e) <= 0 <-> (i < k)%nat)) -> (k <= length l)%nat -> (t <= length l)%nat ->
  Z.of_nat t = Z.max (Z.max 0 lo) (Z.min hi (Z.of_nat k)) -> lo <= lhs y l <= hi -> heavy (firstn t l) <= weigh w y l.
Proof.
  intros Hs H1 Hk Hkl Htl Ht Hy. pose proof (prefix_lightest y l Hs H1) as HP. pose proof (lhs_ones y l H1) as Hb.
  set (s := Z.to_nat (lhs y l)) in *. assert (Hs' : Z.of_nat s = lhs y l) by lia. destruct (le_lt_dec s t) as [H|H].
  - assert (heavy (firstn t l) - heavy (firstn s l) <= 0); [|lia]. apply (heavy_between (fun z => z <= 0)); [lia|lia|lia|].
    intros i e Hi Hn. apply (Hk i e Hn). lia.
  - assert (0 <= heavy (firstn s l) - heavy (firstn t l)); [|lia]. apply (heavy_between (fun z => 0 <= z)); [lia|lia|lia|].
    intros i e Hi Hn. destruct (Z_le_gt_dec (w (f_var e)) 0) as [X|X]; [apply (Hk i e Hn) in X; lia|lia].
Qed.
End Best.

Lemma weigh_opp w x l : weigh (fun v => - w v) x l = - weigh w x l.
Proof. induction l as [|e l IH]; cbn [weigh]; lia. Qed.
Section Optimum.
Context {F : Type} (fo : fops F) (mode : objective_type) (cost : nat -> option F) (w : nat -> Z).
Hypothesis Hw : weak_order (fl_lt fo).
Hypothesis Ho : same_order fo cost w.
Let sw (v : nat) : Z := match mode with minimize => w v | maximize => - w v end.
Lemma solved_best c x x' : (forall e, In e (m_elements c) -> f_factor e = 1) -> (forall e, In e (m_elements c) -> exists a, cost (f_var e) = Some a) ->
  row_satisfiable c -> solved fo mode cost true c x x' ->
  forall y, m_min c <= lhs y (m_elements c) <= m_max c -> weigh sw (as_assignment x') (m_elements c) <= weigh sw y (m_elements c).
Proof.
  intros H1 Hc Hsat HS y Hy. pose proof (solved_count fo mode cost true Hw c x x' H1 Hc Hsat HS) as HL.
  destruct HS as (l & t & [Hp Hs] & Hch & Hl & Hn & _).
  assert (Hx : forall i e, nth_error l i = Some e -> as_assignment x' (f_var e) = Nat.ltb i t).
  { intros i e H. unfold as_assignment. apply nth_error_nth. exact (Hn _ _ H). }
  assert (Htl : (t <= length l)%nat).
  { destruct Hch as [[_ ->]|(f & _ & _ & [X _] & _)]; [lia|exact X]. }
  assert (H1l : forall e, In e l -> f_factor e = 1) by (intros e He; apply H1; eapply Permutation_in; [exact Hp|exact He]).
  assert (Hcl : forall e, In e l -> exists a, cost (f_var e) = Some a) by (intros e He; apply Hc; eapply Permutation_in; [exact Hp|exact He]).
  rewrite <- (lhs_perm _ _ _ Hp), (lhs_prefix _ _ _ Hx) in HL. rewrite total_ones in HL.
  2:{ intros e He. apply H1l. rewrite <- (firstn_skipn t l). apply in_or_app. left. exact He. }
  rewrite firstn_length, Nat.min_l in HL by exact Htl. unfold harmless_number in HL. rewrite <- (filter_perm (harmless fo mode cost) _ _ Hp) in HL.
  rewrite <- !(weigh_perm _ _ _ _ Hp), (weigh_prefix _ _ _ _ Hx). rewrite <- (lhs_perm _ _ _ Hp) in Hy.
  apply (best_prefix sw l (length (filter (harmless fo mode cost) l)) t (m_min c) (m_max c) y); try assumption; [| |apply filter_length].
  - clear -Hs Hcl Ho. induction Hs as [|d l Hs IH Hf]; constructor; [apply IH; intros; apply Hcl; right; assumption|].
    rewrite Forall_forall in *. intros e He. destruct (Hcl d (or_introl eq_refl)) as [a Ha]. destruct (Hcl e (or_intror He)) as [b Hb].
    specialize (Hf e He a b Ha Hb). unfold preferred, sw in *.
    destruct (Ho _ _ _ _ Ha Hb) as (P1 & _ & _). destruct (Ho _ _ _ _ Hb Ha) as (P2 & _ & _). destruct mode.
    + destruct (Z_lt_le_dec (w (f_var d)) (w (f_var e))) as [X|X]; [apply P1 in X; contradiction|lia].
    + destruct (Z_lt_le_dec (w (f_var e)) (w (f_var d))) as [X|X]; [apply P2 in X; contradiction|lia].
  - intros i e Hne. rewrite <- (sorted_prefix _ _ (harmless_sorted fo mode cost Hw l Hcl Hs) i e Hne).
    destruct (Hcl e (nth_error_In _ _ Hne)) as [a Ha]. destruct (Ho _ _ _ _ Ha Ha) as (_ & P2 & P3). unfold harmless, sw. rewrite Ha, negb_true_iff.
    destruct mode.
    + rewrite <- not_true_iff_false, P3. lia.
    + rewrite <- not_true_iff_false, P2. lia.
Qed.
Lemma solved_best_mode c x x' : (forall e, In e (m_elements c) -> f_factor e = 1) -> (forall e, In e (m_elements c) -> exists a, cost (f_var e) = Some a) ->
  row_satisfiable c -> solved fo mode cost true c x x' -> forall y, m_min c <= lhs y (m_elements c) <= m_max c ->
  match mode with
  | minimize => weigh w (as_assignment x') (m_elements c) <= weigh w y (m_elements c)
  | maximize => weigh w y (m_elements c) <= weigh w (as_assignment x') (m_elements c)
  end.
Proof.
  intros H1 Hc Hsat HS y Hy. pose proof (solved_best c x x' H1 Hc Hsat HS y Hy) as H. unfold sw in H. destruct mode; [rewrite !weigh_opp in H; lia|exact H].
Qed.
End Optimum.
