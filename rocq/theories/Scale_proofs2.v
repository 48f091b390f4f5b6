From Coq Require Import QArith Qabs Lqa.
From Verif Require Import Base Problem_model Merged_model Merged_spec Classify_model Preprocess_model Params_model Rows_model Solver_model Cost_model Rewrite_spec Mirror_spec Mirror_proofs Delta_model Delta_spec Scale_spec.
Open Scope Q_scope.

(** ** Exact arithmetic *)
Global Instance times_proper : Proper (Qeq ==> Qeq ==> Qeq ==> iff) times.
Proof. intros a a' Ha b b' Hb c c' Hc. unfold times. now rewrite Ha, Hb, Hc. Qed.
Lemma q_lt_spec a b : q_lt a b = true <-> a < b.
Proof.
  unfold q_lt. rewrite negb_true_iff. destruct (Qle_bool b a) eqn:E; split; intros H; try discriminate; try reflexivity.
  - apply Qle_bool_iff in E. exfalso. lra.
  - apply Qnot_le_lt. intros C. apply Qle_bool_iff in C. congruence.
Qed.
Lemma times_lt c a a' b b' : 0 < c -> times c a a' -> times c b b' -> (a < b <-> a' < b').
Proof.
  unfold times. intros Hc Ha Hb. rewrite Ha, Hb. split; intros H.
  - apply Qmult_lt_l; assumption.
  - apply (Qmult_lt_l a b c Hc). exact H.
Qed.
Lemma q_scaling c : 0 < c -> scaling q_fops (times c).
Proof.
  intros Hc. split; cbn [q_fops fl_of_Z fl_add fl_sub fl_neg fl_mul fl_div fl_lt fl_eqb].
  - unfold times. change (inject_Z 0) with 0. ring.
  - unfold times. intros a a' b b' Ha Hb. rewrite Ha, Hb. ring.
  - unfold times. intros a a' b b' Ha Hb. rewrite Ha, Hb. ring.
  - unfold times. intros a a' Ha. rewrite Ha. ring.
  - unfold times. intros k a a' Ha. rewrite Ha. ring.
  - unfold times. intros k a a' Ha. rewrite Ha. ring.
  - unfold times. intros k a a' Ha. rewrite Ha. unfold Qdiv. ring.
  - intros a a' b b' Ha Hb. pose proof (times_lt c a a' b b' Hc Ha Hb) as [I1 I2].
    destruct (q_lt a b) eqn:E, (q_lt a' b') eqn:E'; try reflexivity.
    + apply q_lt_spec, I1, q_lt_spec in E. congruence.
    + apply q_lt_spec, I2, q_lt_spec in E'. congruence.
  - unfold times. intros a a' b b' Ha Hb. destruct (Qeq_bool a b) eqn:E, (Qeq_bool a' b') eqn:E'; try reflexivity.
    + apply Qeq_bool_iff in E. apply Qeq_bool_neq in E'. exfalso. apply E'. rewrite Ha, Hb, E. reflexivity.
    + apply Qeq_bool_iff in E'. apply Qeq_bool_neq in E. exfalso. apply E. rewrite Ha, Hb in E'. apply Qmult_inj_l in E'; [exact E'|lra].
Qed.

Lemma exact_scaling c : 0 < c -> scaling exact_fops (times c).
Proof.
  intros Hc. pose proof (q_scaling c Hc) as H. split; cbn [exact_fops fl_of_Z fl_add fl_sub fl_neg fl_mul fl_div fl_lt fl_eqb]; intros; try rewrite !Qred_correct.
  - exact (sc_zero _ _ H).
  - now apply (sc_add _ _ H).
  - now apply (sc_sub _ _ H).
  - now apply (sc_neg _ _ H).
  - now apply (sc_mul_l _ _ H).
  - now apply (sc_mul_r _ _ H).
  - now apply (sc_div _ _ H).
  - now apply (sc_lt _ _ H).
  - now apply (sc_eqb _ _ H).
Qed.

(** ** Costs *)
Definition quad_times (c : Q) (a b : quad) : Prop := times c (qd_factor a) (qd_factor b) /\ qd_id a = qd_id b.
Definition costs_times (c : Q) (a b : costs) : Prop :=
  Forall2 (times c) (co_linear a) (co_linear b) /\ Forall2 (quad_times c) (co_quads a) (co_quads b) /\ co_indices a = co_indices b.
Section Scale.
Variable sk : Z.
Notation K := (inject_Z sk).
Lemma times_term z : times K (inject_Z z) (inject_Z (sk * z)).
Proof. unfold times. rewrite inject_Z_mult. reflexivity. Qed.
Lemma add_linear_scl l n : forall c c', Forall2 (times K) c c' -> both (Forall2 (times K)) (add_linear l n c) (add_linear (map (scale_term sk) l) n c').
Proof.
  induction l as [|e l IH]; intros c c' H; cbn [add_linear map]; [exact H|]. cbn [scale_term o_var o_factor]. destruct (Nat.ltb (o_var e) n); [|exact I].
  eapply both_bind; [apply (both_modify (times K)); [exact H|]|].
  - intros a b Hab. cbv beta. unfold times in *. rewrite inject_Z_mult, Hab. ring.
  - intros; now apply IH.
Qed.
Lemma quads_of_scl v l : Forall2 (quad_times K) (quads_of v l) (quads_of v (map (scale_qterm sk) l)).
Proof.
  induction l as [|e l IH]; cbn [quads_of map]; [constructor|]. cbn [scale_qterm q_vara q_varb q_factor].
  destruct (Nat.eqb (q_vara e) v); [constructor; [split; [apply times_term|reflexivity]|exact IH]|].
  destruct (Nat.eqb (q_varb e) v); [constructor; [split; [apply times_term|reflexivity]|exact IH]|exact IH].
Qed.
Lemma count_of_scl v l : count_of v (map (scale_qterm sk) l) = count_of v l.
Proof. induction l as [|e l IH]; cbn [count_of map]; [reflexivity|]. cbn [scale_qterm q_vara q_varb]. now rewrite IH. Qed.
Lemma indices_scl k l : forall v last, indices_from k v last (map (scale_qterm sk) l) = indices_from k v last l.
Proof. induction k as [|k IH]; intros; cbn [indices_from]; [reflexivity|]. now rewrite count_of_scl, IH. Qed.
Lemma Forall2_len {A B} (R : A -> B -> Prop) l l' : Forall2 R l l' -> length l = length l'.
Proof. induction 1; cbn; congruence. Qed.
Lemma make_costs_scl l q n : both (costs_times K) (make_costs (mk_objective l q 0) n) (make_costs (mk_objective (map (scale_term sk) l) (map (scale_qterm sk) q) 0) n).
Proof.
  unfold make_costs, linear_elements. cbn [o_elements o_qelements]. eapply both_bind.
  - apply add_linear_scl. apply Forall2_repeat. unfold times. ring.
  - intros c c' Hc. cbv beta.
    replace (forallb (quad_in n) (map (scale_qterm sk) q)) with (forallb (quad_in n) q) by (clear; induction q as [|e q IH]; cbn [forallb map]; [reflexivity|now rewrite IH]).
    destruct (forallb (quad_in n) q || Nat.eqb n 0); [|exact I]. cbv zeta.
    assert (Hq : Forall2 (quad_times K) (flat_map (fun v => quads_of v q) (seq 0 n)) (flat_map (fun v => quads_of v (map (scale_qterm sk) q)) (seq 0 n))).
    { generalize (seq 0 n). intros s. induction s as [|v s IH]; cbn [flat_map]; [constructor|]. apply Forall2_app; [apply quads_of_scl|exact IH]. }
    rewrite <- (Forall2_len _ _ _ Hq), map_length. destruct (Nat.leb _ _); [|exact I]. split; [exact Hc|]. split; [exact Hq|]. cbn [co_indices]. now rewrite indices_scl.
Qed.
End Scale.
Lemma both_nth_eq {A} (l l' : list A) i : l = l' -> both eq (nth_error l i) (nth_error l' i).
Proof. intros ->. apply both_eq_refl. Qed.
Lemma slice_times c l l' i j : Forall2 (quad_times c) l l' -> Forall2 (quad_times c) (slice l i j) (slice l' i j).
Proof. intros H. unfold slice. apply Forall2_firstn, Forall2_skipn, H. Qed.
Lemma sum_quads_times c x l l' : Forall2 (quad_times c) l l' -> forall r r', times c r r' -> both (times c) (sum_quads x l r) (sum_quads x l' r').
Proof.
  induction 1 as [|d d' l l' [Hd Hi] H IH]; intros r r' Hr; cbn [sum_quads]; [exact Hr|]. rewrite Hi. destruct (nth_error x (qd_id d')) as [b|]; cbn [bind]; [|exact I].
  apply IH. destruct b; [|exact Hr]. unfold times in *. rewrite Hr, Hd. ring.
Qed.
Lemma sum_all_times c l l' : Forall2 (quad_times c) l l' -> forall r r', times c r r' -> times c (sum_all l r) (sum_all l' r').
Proof. induction 1 as [|d d' l l' [Hd Hi] H IH]; intros r r' Hr; cbn [sum_all]; [exact Hr|]. apply IH. unfold times in *. rewrite Hr, Hd. ring. Qed.
Lemma cost_at_times c a b v x : costs_times c a b -> both (times c) (cost_at a v x) (cost_at b v x).
Proof.
  intros (H1 & H2 & H3). unfold cost_at. eapply both_bind; [apply both_nth, H1|]. intros r r' Hr. cbv beta. rewrite H3, (Forall2_len _ _ _ H2).
  destruct (nth_error (co_indices b) v) as [i|]; cbn [bind]; [|exact I]. destruct (nth_error (co_indices b) (S v)) as [j|]; cbn [bind]; [|exact I].
  destruct (_ && _); [|exact I]. apply sum_quads_times; [now apply slice_times|exact Hr].
Qed.
Lemma cost_of_times c a b v : costs_times c a b -> both (times c) (cost_of a v) (cost_of b v).
Proof.
  intros (H1 & H2 & H3). unfold cost_of. eapply both_bind; [apply both_nth, H1|]. intros r r' Hr. cbv beta. rewrite H3, (Forall2_len _ _ _ H2).
  destruct (nth_error (co_indices b) v) as [i|]; cbn [bind]; [|exact I]. destruct (nth_error (co_indices b) (S v)) as [j|]; cbn [bind]; [|exact I].
  destruct (_ && _); [|exact I]. apply sum_all_times; [now apply slice_times|exact Hr].
Qed.
(** The division. *)
Lemma is_normal_times c a b : ~ c == 0 -> times c a b -> is_normal b = is_normal a.
Proof.
  intros Hc H. unfold is_normal. f_equal. destruct (Qeq_bool a 0) eqn:E, (Qeq_bool b 0) eqn:E'; try reflexivity; exfalso; unfold times in H.
  - apply Qeq_bool_iff in E. apply Qeq_bool_neq in E'. apply E'. rewrite H, E. ring.
  - apply Qeq_bool_iff in E'. apply Qeq_bool_neq in E. rewrite H in E'. apply Qmult_integral in E'. tauto.
Qed.
Lemma div_times c d a b u v : ~ d == 0 -> ~ u == 0 -> times c a b -> times d u v -> times (c / d) (a / u) (b / v).
Proof. unfold times. intros Hd Hu H1 H2. rewrite H1, H2. field. split; assumption. Qed.
Lemma divide_times c d a b u v : ~ d == 0 -> is_normal u = true -> costs_times c a b -> times d u v -> costs_times (c / d) (divide a u) (divide b v).
Proof.
  intros Hd Hu (H1 & H2 & H3) Huv. unfold divide. rewrite (is_normal_times d u v Hd Huv), Hu.
  assert (U : ~ u == 0) by (unfold is_normal in Hu; apply negb_true_iff, Qeq_bool_neq in Hu; exact Hu).
  split; [|split; [|exact H3]]; cbn [co_linear co_quads].
  - clear H2. induction H1; cbn [map]; constructor; [now apply div_times|assumption].
  - clear H1. induction H2 as [|p q l l' [P1 P2] H IH]; cbn [map]; constructor; [split; [cbn [qd_factor]; now apply div_times|exact P2]|exact IH].
Qed.
Lemma factors_times c a b : costs_times c a b -> Forall2 (times c) (factors a) (factors b).
Proof.
  intros (H1 & H2 & _). unfold factors. apply Forall2_app; [exact H1|]. clear H1. induction H2 as [|p q l l' [P _] H IH]; cbn [map]; constructor; auto.
Qed.
Lemma sum_abs_times c l l' : 0 < c -> Forall2 (times c) l l' -> times c (sum_abs l) (sum_abs l').
Proof.
  intros Hc H. unfold sum_abs. assert (Z : times c 0 0) by (unfold times; ring). revert Z. generalize 0 at 1 3. generalize 0. intros s s'. revert s s'.
  induction H as [|a b l l' Hab H IH]; intros s s' Hs; cbn [fold_left]; [exact Hs|]. apply IH. unfold times in *. rewrite Hs, Hab, Qabs_Qmult.
  rewrite (Qabs_pos c) by lra. ring.
Qed.
Lemma sum_sq_times c l l' : Forall2 (times c) l l' -> times (c * c) (sum_sq l) (sum_sq l').
Proof.
  intros H. unfold sum_sq. assert (Z : times (c * c) 0 0) by (unfold times; ring). revert Z. generalize 0 at 1 3. generalize 0. intros s s'. revert s s'.
  induction H as [|a b l l' Hab H IH]; intros s s' Hs; cbn [fold_left]; [exact Hs|]. apply IH. unfold times in *. rewrite Hs, Hab. ring.
Qed.
Lemma qmax_times c a a' b b' : 0 < c -> times c a a' -> times c b b' -> times c (qmax a b) (qmax a' b').
Proof.
  intros Hc Ha Hb. unfold qmax. pose proof (times_lt c a a' b b' Hc Ha Hb) as [I1 I2].
  destruct (Qle_bool b a) eqn:E, (Qle_bool b' a') eqn:E'; try assumption; exfalso.
  - apply Qle_bool_iff in E. assert (L : ~ b' <= a') by (intros C; apply Qle_bool_iff in C; congruence). apply Qnot_le_lt, I2 in L. lra.
  - apply Qle_bool_iff in E'. assert (L : ~ b <= a) by (intros C; apply Qle_bool_iff in C; congruence). apply Qnot_le_lt, I1 in L. lra.
Qed.
Lemma fold_qmax_times c l l' : 0 < c -> Forall2 (times c) l l' -> forall a a', times c a a' -> times c (fold_left qmax l a) (fold_left qmax l' a').
Proof. intros Hc. induction 1 as [|u v l l' Huv H IH]; intros a a' Ha; cbn [fold_left]; [exact Ha|]. apply IH. now apply qmax_times. Qed.
(** When everything is zero. *)
Definition all_zero (a : costs) : Prop := (forall q, In q (co_linear a) -> q == 0) /\ (forall d, In d (co_quads a) -> qd_factor d == 0).
Lemma zero_times c d a b : costs_times c a b -> all_zero a -> costs_times d a b.
Proof.
  intros (H1 & H2 & H3) [Z1 Z2]. split; [|split; [|exact H3]].
  - clear - H1 Z1. induction H1 as [|u v l l' Huv H IH]; constructor; [|apply IH; intros; apply Z1; now right].
    unfold times in *. rewrite Huv, (Z1 u) by now left. ring.
  - clear - H2 Z2. induction H2 as [|u v l l' [Huv E] H IH]; constructor; [|apply IH; intros; apply Z2; now right].
    split; [|exact E]. unfold times in *. rewrite Huv, (Z2 u) by now left. ring.
Qed.
Lemma sum_abs_zero l : sum_abs l == 0 -> forall q, In q l -> q == 0.
Proof.
  unfold sum_abs. assert (G : forall l s, 0 <= s -> fold_left (fun s q => s + Qabs q) l s == 0 -> s == 0 /\ forall q, In q l -> q == 0).
  { clear. induction l as [|a l IH]; intros s Hs H; cbn [fold_left] in H; [split; [exact H|intros q []]|].
    pose proof (Qabs_nonneg a) as P. destruct (IH (s + Qabs a)) as [I1 I2]; [lra|exact H|].
    split; [lra|]. intros q [<-|Hq]; [|auto]. assert (A : Qabs a == 0) by lra.
    destruct (Qlt_le_dec a 0) as [L|L]; [rewrite Qabs_neg in A by lra; lra|rewrite Qabs_pos in A by exact L; exact A]. }
  intros H. apply (G l 0); [lra|exact H].
Qed.
Lemma l1_times c a b : 0 < c -> costs_times c a b -> costs_times 1 (l1_norm a) (l1_norm b).
Proof.
  intros Hc H. assert (N : ~ c == 0) by lra. unfold l1_norm. pose proof (sum_abs_times c _ _ Hc (factors_times c a b H)) as S.
  destruct (is_normal (sum_abs (factors a))) eqn:E.
  - pose proof (divide_times c c a b _ _ N E H S) as D. assert (Q1 : c / c == 1) by (field; exact N). clear - D Q1.
    destruct D as (D1 & D2 & D3). split; [|split; [|exact D3]].
    + induction D1; constructor; auto. now rewrite <- Q1.
    + induction D2 as [|u v l l' [Huv Hi] D IH]; constructor; auto. split; [now rewrite <- Q1|exact Hi].
  - unfold divide. rewrite (is_normal_times c _ _ N S), E. apply (zero_times c); [exact H|].
    unfold is_normal in E. apply negb_false_iff, Qeq_bool_iff in E. pose proof (sum_abs_zero _ E) as Z. unfold factors in Z.
    split; [intros q Hq; apply Z, in_or_app; now left|]. intros d Hd. apply Z, in_or_app. right. apply in_map, Hd.
Qed.
Lemma l2_times c a b : 0 < c -> costs_times c a b -> costs_times (/ c) (l2_norm a) (l2_norm b).
Proof.
  intros Hc H. assert (N : ~ c == 0) by lra. assert (N2 : ~ c * c == 0) by (intros C; apply Qmult_integral in C; tauto).
  unfold l2_norm. pose proof (sum_sq_times c _ _ (factors_times c a b H)) as S.
  destruct (is_normal (sum_sq (factors a))) eqn:E.
  - pose proof (divide_times c (c * c) a b _ _ N2 E H S) as D. assert (Q1 : c / (c * c) == / c) by (field; exact N). clear - D Q1.
    destruct D as (D1 & D2 & D3). split; [|split; [|exact D3]].
    + induction D1; constructor; auto. now rewrite <- Q1.
    + induction D2 as [|u v l l' [Huv Hi] D IH]; constructor; auto. split; [now rewrite <- Q1|exact Hi].
  - unfold divide. rewrite (is_normal_times (c * c) _ _ N2 S), E. apply (zero_times c); [exact H|].
    unfold is_normal in E. apply negb_false_iff, Qeq_bool_iff in E.
    assert (Z : forall q, In q (factors a) -> q == 0).
    { revert E. unfold sum_sq. assert (G : forall l s, 0 <= s -> fold_left (fun s q => s + q * q) l s == 0 -> s == 0 /\ forall q, In q l -> q == 0).
      { clear. induction l as [|u l IH]; intros s Hs E; cbn [fold_left] in E; [split; [exact E|intros q []]|].
        assert (P : 0 <= u * u) by (destruct (Qlt_le_dec u 0); nra).
        destruct (IH (s + u * u)) as [I1 I2]; [lra|exact E|]. split; [lra|]. intros q [<-|Hq]; [|auto].
        assert (A : u * u == 0) by lra. apply Qmult_integral in A. tauto. }
      intros E. apply (G (factors a) 0); [lra|exact E]. }
    unfold factors in Z. split; [intros q Hq; apply Z, in_or_app; now left|]. intros d Hd. apply Z, in_or_app. right. apply in_map, Hd.
Qed.
(** The infinity norm: the largest cost is not 0, or there are no other costs than 0. *)
Lemma qmax_ge a b : a <= qmax a b /\ b <= qmax a b.
Proof.
  unfold qmax. destruct (Qle_bool b a) eqn:E; [apply Qle_bool_iff in E; lra|].
  assert (L : ~ b <= a) by (intros C; apply Qle_bool_iff in C; congruence). apply Qnot_le_lt in L. lra.
Qed.
Lemma fold_qmax_ge l : forall a, a <= fold_left qmax l a /\ forall q, In q l -> q <= fold_left qmax l a.
Proof.
  induction l as [|u l IH]; intros a; cbn [fold_left]; [split; [lra|intros q []]|]. destruct (IH (qmax a u)) as [I1 I2]. destruct (qmax_ge a u) as [G1 G2].
  split; [lra|]. intros q [<-|Hq]; [lra|auto].
Qed.
Lemma both_eq {A B} (R : A -> B -> Prop) x y : R x y -> both R (Some x) (Some y).
Proof. exact (fun H => H). Qed.
Lemma loo_times c a b : 0 < c -> costs_times c a b -> co_quads a = [] -> (forall q, In q (co_linear a) -> 0 <= q) -> both (costs_times 1) (loo_norm a) (loo_norm b).
Proof.
  intros Hc H Hq Hp. assert (N : ~ c == 0) by lra. unfold loo_norm, max_element.
  assert (Hb : co_quads b = []) by (destruct H as (_ & H2 & _); rewrite Hq in H2; now inversion H2).
  rewrite Hq, Hb. destruct (co_linear a) as [|u l] eqn:Ea.
  - destruct (co_linear b) eqn:Eb; [exact I|]. destruct H as (H1 & _). rewrite Ea, Eb in H1. inversion H1.
  - destruct (co_linear b) as [|v l'] eqn:Eb; [destruct H as (H1 & _); rewrite Ea, Eb in H1; inversion H1|].
    cbn [bind map fold_left]. apply both_eq.
    assert (S : times c (fold_left qmax l u) (fold_left qmax l' v)).
    { destruct H as (H1 & _). rewrite Ea, Eb in H1. inversion H1; subst. now apply fold_qmax_times. }
    destruct (is_normal (fold_left qmax l u)) eqn:E2.
    + pose proof (divide_times c c a b _ _ N E2 H S) as D. assert (Q1 : c / c == 1) by (field; exact N). clear - D Q1.
      destruct D as (D1 & D2 & D3). split; [|split; [|exact D3]].
      * induction D1; constructor; auto. now rewrite <- Q1.
      * induction D2 as [|x y m m' [Hxy Hi] D IH]; constructor; auto. split; [now rewrite <- Q1|exact Hi].
    + unfold divide. rewrite (is_normal_times c _ _ N S), E2. apply (zero_times c); [exact H|].
      unfold is_normal in E2. apply negb_false_iff, Qeq_bool_iff in E2. destruct (fold_qmax_ge l u) as [G1 G2].
      split; [|rewrite Hq; intros d []]. rewrite Ea. intros q Hin. pose proof (Hp q Hin) as P.
      destruct Hin as [<-|Hin]; [lra|]. specialize (G2 q Hin). lra.
Qed.

(** ** The costs of the solver *)
Lemma q_raw_scl sk l q n v : both (times (inject_Z sk)) (q_raw l q n v) (q_raw (map (scale_term sk) l) (map (scale_qterm sk) q) n v).
Proof. unfold q_raw. eapply both_bind; [apply make_costs_scl|]. intros; now apply cost_of_times. Qed.
Lemma q_none_scl sk l q n v x : both (times (inject_Z sk)) (q_normal cn_none l q n v x) (q_normal cn_none (map (scale_term sk) l) (map (scale_qterm sk) q) n v x).
Proof. unfold q_normal, normalize. eapply both_bind; [apply make_costs_scl|]. intros; cbn [bind fst]. now apply cost_at_times. Qed.
Lemma pos_inject sk : (0 < sk)%Z -> 0 < inject_Z sk.
Proof. intros H. change 0 with (inject_Z 0). rewrite <- Zlt_Qlt. exact H. Qed.
Lemma q_l1_scl sk l q n v x : (0 < sk)%Z -> both (times 1) (q_normal cn_l1 l q n v x) (q_normal cn_l1 (map (scale_term sk) l) (map (scale_qterm sk) q) n v x).
Proof.
  intros Hk. unfold q_normal, normalize. eapply both_bind; [apply make_costs_scl|]. intros a b H; cbn [bind fst]. apply cost_at_times.
  apply (l1_times (inject_Z sk)); [now apply pos_inject|exact H].
Qed.
Lemma q_l2_scl sk l q n v x : (0 < sk)%Z -> both (times (/ inject_Z sk)) (q_normal cn_l2 l q n v x) (q_normal cn_l2 (map (scale_term sk) l) (map (scale_qterm sk) q) n v x).
Proof.
  intros Hk. unfold q_normal, normalize. eapply both_bind; [apply make_costs_scl|]. intros a b H; cbn [bind fst]. apply cost_at_times.
  apply l2_times; [now apply pos_inject|exact H].
Qed.
Lemma set_nonneg (l : list Q) z : 0 <= z -> forall i r, (forall q, In q l -> 0 <= q) -> list_upd l i z = Some r -> forall q, In q r -> 0 <= q.
Proof.
  intros Hz. induction l as [|a l IH]; intros [|i] r Hl E q Hq; cbn [list_upd] in E; try discriminate.
  - inversion E; subst. destruct Hq as [<-|Hq]; [exact Hz|apply Hl; now right].
  - destruct (list_upd l i z) as [r'|] eqn:E'; cbn [option_map bind] in E; [|discriminate]. inversion E; subst.
    destruct Hq as [<-|Hq]; [apply Hl; now left|]. eapply (IH i r'); [intros; apply Hl; now right|exact E'|exact Hq].
Qed.
Lemma modify_nonneg (l : list Q) z : 0 <= z -> forall i r, (forall q, In q l -> 0 <= q) -> list_modify l i (fun x => x + z) = Some r -> forall q, In q r -> 0 <= q.
Proof.
  intros Hz i r Hl E. unfold list_modify in E. destruct (nth_error l i) as [a|] eqn:En; cbn [bind] in E; [|discriminate].
  eapply set_nonneg; [|exact Hl|exact E]. apply nth_error_In in En. specialize (Hl a En). lra.
Qed.
Lemma add_linear_nonneg l n : (forall e, In e l -> (0 <= o_factor e)%Z) -> forall c r, (forall q, In q c -> 0 <= q) -> add_linear l n c = Some r -> forall q, In q r -> 0 <= q.
Proof.
  induction l as [|e l IH]; intros Hl c r Hc E; cbn [add_linear] in E; [inversion E; subst; exact Hc|].
  destruct (Nat.ltb (o_var e) n); [|discriminate].
  match type of E with bind ?a _ = _ => destruct a as [c'|] eqn:M end; cbn [bind] in E; [|discriminate].
  apply (IH (fun x Hx => Hl x (or_intror Hx)) c' r); [|exact E]. eapply modify_nonneg; [|exact Hc|exact M].
  change 0 with (inject_Z 0). rewrite <- Zle_Qle. apply Hl. now left.
Qed.
Lemma flat_map_nil {A B} (s : list A) : flat_map (fun _ => @nil B) s = [].
Proof. induction s; cbn; auto. Qed.
Lemma make_costs_nonneg l q n c : costs_not_negative l q -> make_costs (mk_objective l q 0) n = Some c -> co_quads c = [] /\ forall x, In x (co_linear c) -> 0 <= x.
Proof.
  intros [-> Hl] H. unfold make_costs, linear_elements in H. cbn [o_elements o_qelements forallb orb quads_of length] in H.
  destruct (add_linear l n _) as [r|] eqn:E; cbn [bind] in H; [|discriminate].
  rewrite flat_map_nil in H. cbn [length Nat.leb] in H. inversion H; subst. cbn [co_quads co_linear]. split; [reflexivity|].
  eapply add_linear_nonneg; [exact Hl| |exact E]. intros x Hx. apply repeat_spec in Hx. subst. lra.
Qed.
Lemma q_loo_scl sk l q n v x : (0 < sk)%Z -> costs_not_negative l q -> both (times 1) (q_normal cn_loo l q n v x) (q_normal cn_loo (map (scale_term sk) l) (map (scale_qterm sk) q) n v x).
Proof.
  intros Hk Hn. unfold q_normal, normalize. pose proof (make_costs_scl sk l q n) as M. pose proof (make_costs_nonneg l q n) as N.
  destruct (make_costs (mk_objective l q 0) n) as [a|], (make_costs (mk_objective (map _ l) _ 0) n) as [b|]; cbn [both] in M; try contradiction; [|exact I].
  cbn [bind]. destruct (N a Hn eq_refl) as [N1 N2]. pose proof (loo_times (inject_Z sk) a b (pos_inject sk Hk) M N1 N2) as L.
  destruct (loo_norm a) as [a'|], (loo_norm b) as [b'|]; cbn [both] in L; try contradiction; [|exact I]. cbn [bind fst]. now apply cost_at_times.
Qed.
Lemma kept_any : kept any_terms.
Proof. intros fuel pb r _ _. exact I. Qed.
Lemma copy_linear_from m l : forall v r, copy_linear m l v = Some r -> forall e, In e (fst r) -> exists e', In e' l /\ o_factor e = o_factor e'.
Proof.
  induction l as [|a l IH]; intros v r H e He; cbn [copy_linear] in H; [inversion H; subst; destruct He|].
  destruct (nth_error m (o_var a)) as [[[j|] b]|]; cbn [bind fst snd] in H; [| |discriminate].
  - destruct (copy_linear m l v) as [r'|] eqn:E; cbn [bind] in H; [|discriminate]. inversion H; subst. cbn [fst] in He.
    destruct He as [<-|He]; [exists a; split; [now left|reflexivity]|]. destruct (IH _ _ E _ He) as (e' & I & Q). exists e'. split; [now right|exact Q].
  - destruct (IH _ _ H _ He) as (e' & I & Q). exists e'. split; [now right|exact Q].
Qed.
Lemma lp_linear pb ch s mo : o_qelements (p_objective pb) = [] -> make_lp_from_bqp_objective pb ch s = Some mo -> mo = mk_merge_obj [] 0.
Proof.
  intros Hq. unfold make_lp_from_bqp_objective. rewrite Hq. cbn [fold_left].
  assert (G : forall l acc, (forall m, acc = Some m -> m = mk_merge_obj [] 0) -> forall m,
    fold_left (fun acc i => do mo <- acc; match vfind (s_vars s) i with Some _ => Some mo | None => do u <- is_unused_variable ch s i; Some (if u then mo else mo) end) l acc = Some m -> m = mk_merge_obj [] 0).
  { induction l as [|i l IH]; intros acc Ha m H; cbn [fold_left] in H; [auto|]. eapply IH; [|exact H]. intros m'. destruct acc as [a|]; cbn [bind]; [|discriminate].
    destruct (vfind (s_vars s) i); [intros E; inversion E; subst; auto|]. destruct (is_unused_variable ch s i) as [u|]; cbn [bind]; [|discriminate].
    intros E. inversion E; subst. destruct u; auto. }
  intros H. eapply G; [|exact H]. intros m E. now inversion E.
Qed.
Lemma kept_not_negative : kept costs_not_negative.
Proof.
  intros fuel pb q [Hq Hl] H. unfold preprocess in H. destruct (of_opt (make_caches pb)) as [ch| |]; cbn [obind] in H; try discriminate.
  destruct (try_affect_variable pb _) as [s2| |]; cbn [obind] in H; try discriminate. unfold finish in H.
  destruct (affects fuel pb ch s2) as [[s1|]| |]; cbn [obind] in H; try discriminate.
  destruct (make_lp_from_bqp_objective pb ch s1) as [mo|] eqn:Em; cbn [of_opt obind] in H; [|discriminate].
  apply lp_linear in Em; [|exact Hq]. subst mo.
  destruct (of_opt (try_remove_unused_variable pb ch s1)) as [s3| |]; cbn [obind] in H; try discriminate.
  destruct (affects fuel pb ch s3) as [[s4|]| |]; cbn [obind] in H; try discriminate.
  destruct (make_problem pb _ _ s4) as [q'| |] eqn:E; cbn [obind] in H; try discriminate. inversion H; subst q'. clear H.
  unfold make_problem in E. destruct (Nat.eqb _ _); cbn [ensures] in E; [|discriminate].
  destruct (objective_function_exclude_copy _ _ _) as [o|] eqn:Eo; cbn [of_opt obind] in E; [|discriminate].
  destruct (of_opt (variables_exclude_copy _ _ _ _ _)) as [[vs af]| |]; cbn [obind] in E; try discriminate.
  destruct (names_kept _ _ _); cbn [ensures] in E; [|discriminate].
  destruct (constraints_exclude_copy _ _ (p_equal pb)) as [e|]; cbn [of_opt obind] in E; [|discriminate].
  destruct (constraints_exclude_copy _ _ (p_greater pb)) as [gr|]; cbn [of_opt obind] in E; [|discriminate].
  destruct (constraints_exclude_copy _ _ (p_less pb)) as [le|]; cbn [of_opt obind] in E; [|discriminate].
  destruct (_ && _); cbn [ensures] in E; [|discriminate]. inversion E; subst. unfold terms_ok. cbn [p_objective].
  unfold objective_function_exclude_copy in Eo. rewrite Hq in Eo. cbn [copy_quadratic mo_elements merge_elements bind] in Eo.
  match type of Eo with bind ?a _ = _ => destruct a as [r|] eqn:Ec end; cbn [bind] in Eo; [|discriminate]. inversion Eo; subst. cbn [o_elements o_qelements].
  split; [reflexivity|]. rewrite app_nil_r. intros x Hx. destruct (copy_linear_from _ _ _ _ Ec _ Hx) as (x' & I1 & ->). now apply Hl.
Qed.

(** ** The default of delta *)
Lemma f_abs_q x : f_abs q_fops x == Qabs x.
Proof.
  unfold f_abs. cbn [q_fops fl_signbit fl_neg]. destruct (q_lt x 0) eqn:E.
  - apply q_lt_spec in E. rewrite Qabs_neg by lra. reflexivity.
  - assert (L : ~ x < 0) by (intros C; apply q_lt_spec in C; congruence). rewrite Qabs_pos by lra. reflexivity.
Qed.
Lemma min_q a b : (f_min q_fops a b <= a /\ f_min q_fops a b <= b) /\ (f_min q_fops a b == a \/ f_min q_fops a b == b).
Proof.
  unfold f_min. cbn [q_fops fl_lt]. destruct (q_lt b a) eqn:E.
  - apply q_lt_spec in E. split; [lra|right; reflexivity].
  - assert (L : ~ b < a) by (intros C; apply q_lt_spec in C; congruence). split; [lra|left; reflexivity].
Qed.
Lemma min_times c a a' b b' : 0 < c -> times c a a' -> times c b b' -> times c (f_min q_fops a b) (f_min q_fops a' b').
Proof.
  intros Hc Ha Hb. unfold f_min. cbn [q_fops fl_lt]. pose proof (sc_lt _ _ (q_scaling c Hc) _ _ _ _ Hb Ha) as E. cbn [q_fops fl_lt] in E. rewrite <- E.
  destruct (q_lt b a); assumption.
Qed.
Lemma min_cost_times c big l l' : 0 < c -> Forall2 (times c) l l' -> (exists q, In q l /\ ~ q == 0) ->
  (forall q, In q l -> Qabs q <= big) -> (forall q, In q l' -> Qabs q <= big) -> times c (min_cost q_fops big l) (min_cost q_fops big l').
Proof.
  intros Hc H Hex Hl Hl'. unfold min_cost.
  assert (G : forall l l', Forall2 (times c) l l' -> (forall q, In q l -> Qabs q <= big) -> (forall q, In q l' -> Qabs q <= big) -> forall m m',
    (times c m m') \/ (m == big /\ m' == big /\ exists q, In q l /\ ~ q == 0) ->
    times c (fold_left (fun m c => if fl_eqb q_fops c (fl_of_Z q_fops 0) then m else f_min q_fops m (f_abs q_fops c)) l m)
      (fold_left (fun m c => if fl_eqb q_fops c (fl_of_Z q_fops 0) then m else f_min q_fops m (f_abs q_fops c)) l' m')).
  { clear l l' H Hex Hl Hl'. induction 1 as [|a b l l' Hab H IH]; intros Hl Hl' m m' Hm; cbn [fold_left].
    - destruct Hm as [Hm|(_ & _ & q & [] & _)]. exact Hm.
    - apply IH; [intros; apply Hl; now right|intros; apply Hl'; now right|].
      pose proof (is_normal_times c a b ltac:(lra) Hab) as E0. unfold Cost_model.is_normal in E0. cbn [q_fops fl_eqb fl_of_Z]. change (inject_Z 0) with 0.
      assert (E : Qeq_bool b 0 = Qeq_bool a 0) by (destruct (Qeq_bool a 0), (Qeq_bool b 0); cbn in E0; congruence). rewrite E. clear E E0.
      assert (A : times c (f_abs q_fops a) (f_abs q_fops b)).
      { unfold times in *. rewrite !f_abs_q, Hab, Qabs_Qmult, (Qabs_pos c) by lra. reflexivity. }
      destruct (Qeq_bool a 0) eqn:Ea.
      + destruct Hm as [Hm|(M1 & M2 & q & [<-|Hq] & Nq)]; [now left| |right; eauto 6]. apply Qeq_bool_iff in Ea. contradiction.
      + left. destruct Hm as [Hm|(M1 & M2 & _)]; [now apply min_times|].
        assert (P1 : f_min q_fops m (f_abs q_fops a) == f_abs q_fops a).
        { destruct (min_q m (f_abs q_fops a)) as [[G1 G2] [G3|G3]]; [|exact G3]. pose proof (Hl a (or_introl eq_refl)) as B. rewrite <- f_abs_q in B. lra. }
        assert (P2 : f_min q_fops m' (f_abs q_fops b) == f_abs q_fops b).
        { destruct (min_q m' (f_abs q_fops b)) as [[G1 G2] [G3|G3]]; [|exact G3]. pose proof (Hl' b (or_introl eq_refl)) as B. rewrite <- f_abs_q in B. lra. }
        unfold times in *. rewrite P1, P2. exact A. }
  apply G; try assumption. right. split; [reflexivity|]. split; [reflexivity|exact Hex].
Qed.
Lemma default_delta_times c big theta delta l l' : 0 < c -> Forall2 (times c) l l' -> (exists q, In q l /\ ~ q == 0) ->
  (forall q, In q l -> Qabs q <= big) -> (forall q, In q l' -> Qabs q <= big) -> delta < 0 ->
  times c (used_delta q_fops big theta delta l) (used_delta q_fops big theta delta l').
Proof.
  intros Hc H Hex Hl Hl' Hd. unfold used_delta. cbn [q_fops fl_lt fl_of_Z]. change (inject_Z 0) with 0.
  assert (E : q_lt delta 0 = true) by (apply q_lt_spec; exact Hd). rewrite E. unfold compute_delta. cbv zeta.
  pose proof (min_cost_times c big l l' Hc H Hex Hl Hl') as M. cbn [q_fops fl_sub fl_mul]. unfold times in *. rewrite M. ring.
Qed.
