(** The additions of doubles that need no rounding. *)
From Coq Require Import ZArith SpecFloat Lia.
From Verif Require Import Base Problem_model Problem_spec Solver_model Preprocess_model Double_model Double_spec.
Open Scope Z_scope.

Definition digits (p : positive) : Z := Zpos (digits2_pos p).

Lemma digits_bounds p : 2 ^ (digits p - 1) <= Zpos p < 2 ^ digits p.
Proof.
  unfold digits; induction p as [p IH|p IH|]; cbn [digits2_pos]; try rewrite Pos2Z.inj_succ.
  - replace (Z.succ (Zpos (digits2_pos p)) - 1) with (Z.succ (Zpos (digits2_pos p) - 1)) by lia.
    rewrite !Z.pow_succ_r by lia. lia.
  - replace (Z.succ (Zpos (digits2_pos p)) - 1) with (Z.succ (Zpos (digits2_pos p) - 1)) by lia.
    rewrite !Z.pow_succ_r by lia. lia.
  - cbn. lia.
Qed.

Lemma digits_pos p : 1 <= digits p.
Proof. unfold digits; lia. Qed.

Lemma digits_unique p d : 2 ^ (d - 1) <= Zpos p < 2 ^ d -> digits p = d.
Proof.
  intros [H1 H2]. pose proof (digits_bounds p) as [B1 B2]. pose proof (digits_pos p).
  assert (0 < d) by (destruct (Z_lt_le_dec 0 d); [assumption|]; destruct (Z.eq_dec d 0); [subst; cbn in H2; lia|rewrite Z.pow_neg_r in H2; lia]).
  destruct (Z_lt_le_dec (digits p) d) as [L|L].
  - assert (2 ^ digits p <= 2 ^ (d - 1)) by (apply Z.pow_le_mono_r; lia). lia.
  - destruct (Z.eq_dec (digits p) d); [assumption|]. assert (2 ^ d <= 2 ^ (digits p - 1)) by (apply Z.pow_le_mono_r; lia). lia.
Qed.

(** Products with powers of two *)
Lemma digits_shift p q n : 0 <= n -> Zpos q = Zpos p * 2 ^ n -> digits q = digits p + n.
Proof.
  intros Hn E. apply digits_unique. pose proof (digits_bounds p) as [B1 B2]. pose proof (digits_pos p). rewrite E.
  replace (digits p + n - 1) with ((digits p - 1) + n) by lia. rewrite !Z.pow_add_r by lia.
  pose proof (Z.pow_pos_nonneg 2 n ltac:(lia) Hn). nia.
Qed.

(** Halving an even number n times *)
Lemma iter_shr n : forall m k, 0 <= k -> SpecFloat.iter_pos shr_1 n (Build_shr_record (Zpos m * 2 ^ (Zpos n + k)) false false)
  = Build_shr_record (Zpos m * 2 ^ k) false false.
Proof.
  assert (S1 : forall m k, 0 <= k -> shr_1 (Build_shr_record (Zpos m * 2 ^ (1 + k)) false false) = Build_shr_record (Zpos m * 2 ^ k) false false).
  { intros m k Hk. rewrite Z.pow_add_r by lia.
    assert (P : 0 < Zpos m * 2 ^ k) by (pose proof (Z.pow_pos_nonneg 2 k ltac:(lia) Hk); nia).
    replace (Zpos m * (2 ^ 1 * 2 ^ k)) with (2 * (Zpos m * 2 ^ k)) by (rewrite Z.pow_1_r; ring).
    destruct (Zpos m * 2 ^ k) eqn:E; try lia. reflexivity. }
  induction n as [n IH|n IH|]; intros m k Hk; cbn [SpecFloat.iter_pos].
  - replace (Zpos n~1 + k) with (1 + (Zpos n + (Zpos n + k))) by lia. rewrite S1 by lia. rewrite IH by lia. now rewrite IH by lia.
  - replace (Zpos n~0 + k) with (Zpos n + (Zpos n + k)) by lia. rewrite IH by lia. now rewrite IH by lia.
  - now rewrite S1.
Qed.

Definition emin64 : Z := -1074.
Lemma fexp64 e : fexp 53 1024 e = Z.max (e - 53) emin64.
Proof. reflexivity. Qed.

(** A mantissa that is a multiple of the bits to drop *)
Lemma round_aux s m e m' :
  0 <= fexp 53 1024 (digits m + e) - e -> Zpos m = Zpos m' * 2 ^ (fexp 53 1024 (digits m + e) - e) ->
  fexp 53 1024 (digits m + e) <= 971 ->
  binary_round_aux 53 1024 s (Zpos m) e loc_Exact = S754_finite s m' (fexp 53 1024 (digits m + e)).
Proof.
  intros Hn Em He. set (f := fexp 53 1024 (digits m + e)) in *.
  assert (Ed : digits m = digits m' + (f - e)) by (apply digits_shift; auto).
  assert (Sh : shr_fexp 53 1024 (Zpos m) e loc_Exact = (Build_shr_record (Zpos m') false false, f)).
  { unfold shr_fexp. cbn [Zdigits2 shr_record_of_loc]. change (Zpos (digits2_pos m)) with (digits m). fold f.
    destruct (f - e) as [|n|n] eqn:E; [|cbn [shr]|lia].
    - cbn [shr]. rewrite Z.pow_0_r, Z.mul_1_r in Em. rewrite Em. f_equal. lia.
    - rewrite Em. replace (Zpos n) with (Zpos n + 0) at 1 by lia. rewrite iter_shr by lia. rewrite Z.pow_0_r, Z.mul_1_r. f_equal. lia. }
  unfold binary_round_aux. rewrite Sh. cbn [shr_m loc_of_shr_record round_nearest_even].
  assert (Sh2 : shr_fexp 53 1024 (Zpos m') f loc_Exact = (Build_shr_record (Zpos m') false false, f)).
  { unfold shr_fexp. cbn [Zdigits2 shr_record_of_loc]. change (Zpos (digits2_pos m')) with (digits m').
    replace (digits m' + f) with (digits m + e) by lia. fold f. rewrite Z.sub_diag. reflexivity. }
  rewrite Sh2. cbn [shr_m]. change (1024 - 53) with 971. now rewrite (proj2 (Z.leb_le f 971) He).
Qed.

Lemma shift_pos_mul n m : Zpos (shift_pos n m) = Zpos m * 2 ^ Zpos n.
Proof. rewrite Zpower.shift_pos_correct. now rewrite Z.mul_comm. Qed.

(** The result of a rounding of ±a 2^(j - 1074), when |a| is at most 2^53: the number itself. *)
Lemma round_exact s m e a j : -1074 <= e -> 0 <= j <= 2044 -> 0 < a <= 2 ^ 53 -> Zpos m * 2 ^ (e + 1074) = a * 2 ^ j ->
  exists m' e', binary_round 53 1024 s m e = S754_finite s m' e' /\ bounded 53 1024 m' e' = true /\ -1074 <= e' /\
    Zpos m' * 2 ^ (e' + 1074) = a * 2 ^ j.
Proof.
  intros He Hj Ha Ev.
  pose proof (digits_bounds m) as [B1 B2]. pose proof (digits_pos m) as D1.
  assert (P0 : 0 < 2 ^ (e + 1074)) by (apply Z.pow_pos_nonneg; lia).
  assert (Pj : 0 < 2 ^ j) by (apply Z.pow_pos_nonneg; lia).
  set (f := fexp 53 1024 (digits m + e)).
  assert (Ef : f = Z.max (digits m + e - 53) (-1074)) by reflexivity.
  assert (Top : digits m + e <= 1024).
  { destruct (Z_le_gt_dec (digits m + e) 1024); [assumption|].
    assert (2 ^ (2098) <= 2 ^ ((digits m - 1) + (e + 1074))) by (apply Z.pow_le_mono_r; lia).
    rewrite Z.pow_add_r in H by lia.
    assert (a * 2 ^ j <= 2 ^ 53 * 2 ^ 2044) by (apply Z.mul_le_mono_nonneg; try lia; apply Z.pow_le_mono_r; lia).
    rewrite <- Z.pow_add_r in H0 by lia. change (53 + 2044) with 2097 in H0.
    assert (2 ^ 2097 < 2 ^ 2098) by (apply Z.pow_lt_mono_r; lia). nia. }
  assert (Good : forall m', 0 < digits m' -> digits m' + f = digits m + e -> bounded 53 1024 m' f = true).
  { intros m' _ Hd. unfold bounded, canonical_mantissa. change (Zpos (digits2_pos m')) with (digits m'). rewrite Hd. fold f.
    rewrite Zeq_is_eq_bool_refl || (replace (Zeq_bool f f) with true by (symmetry; apply Zeq_is_eq_bool; reflexivity)).
    change (1024 - 53) with 971. apply Z.leb_le. lia. }
  unfold binary_round. change (Zpos (digits2_pos m)) with (digits m). fold f. unfold shl_align.
  destruct (f - e) as [|n|n] eqn:E.
  - exists m, f. replace e with f by lia. rewrite (round_aux s m f m).
    + replace (digits m + f) with (digits m + e) by lia. fold f. repeat split; try lia; [apply Good; lia|]. replace (f + 1074) with (e + 1074) by lia. exact Ev.
    + replace (digits m + f) with (digits m + e) by lia. fold f. lia.
    + replace (digits m + f) with (digits m + e) by lia. fold f. rewrite Z.sub_diag, Z.pow_0_r. lia.
    + replace (digits m + f) with (digits m + e) by lia. fold f. lia.
  - assert (Ff : f = digits m + e - 53) by lia.
    assert (Div : exists b, 0 < b /\ Zpos m = b * 2 ^ (Zpos n)).
    { assert (Q : exists a' j', 0 < a' < 2 ^ 53 /\ 0 <= j' /\ a * 2 ^ j = a' * 2 ^ j').
      { destruct (Z.eq_dec a (2 ^ 53)) as [->|N].
        - exists 1, (53 + j). rewrite Z.pow_add_r by lia. lia.
        - exists a, j. lia. }
      destruct Q as (a' & j' & Ha' & Hj' & Eq). rewrite Eq in Ev.
      assert (Pj' : 0 < 2 ^ j') by (apply Z.pow_pos_nonneg; lia).
      assert (L : digits m - 1 + (e + 1074) < 53 + j').
      { apply (Z.pow_lt_mono_r_iff 2); try lia. rewrite (Z.pow_add_r 2 53 j'), (Z.pow_add_r 2 (digits m - 1) (e + 1074)) by lia.
        apply (Z.le_lt_trans _ (Zpos m * 2 ^ (e + 1074))); [apply Z.mul_le_mono_nonneg_r; lia|]. rewrite Ev. apply (proj1 (Z.mul_lt_mono_pos_r _ _ _ Pj')); lia. }
      exists (a' * 2 ^ (j' - (e + 1074) - Zpos n)).
      assert (Z2 : 2 ^ j' = 2 ^ (j' - (e + 1074) - Zpos n) * 2 ^ Zpos n * 2 ^ (e + 1074)).
      { rewrite <- !Z.pow_add_r by lia. f_equal. lia. }
      assert (0 < 2 ^ (j' - (e + 1074) - Zpos n)) by (apply Z.pow_pos_nonneg; lia).
      split; [nia|]. rewrite Z2 in Ev. apply (Z.mul_reg_r _ _ (2 ^ (e + 1074))); [lia|]. rewrite Ev. ring. }
    destruct Div as (b & Hb & Em). destruct b as [|b|b]; try lia.
    exists b, f. rewrite (round_aux s m e b); fold f.
    + assert (Ed : digits m = digits b + Zpos n) by (apply digits_shift; lia).
      repeat split; try lia. * apply Good; [pose proof (digits_pos b); lia|lia].
      * rewrite <- Ev, Em. replace (f + 1074) with (Zpos n + (e + 1074)) by lia. rewrite Z.pow_add_r by lia. ring.
    + lia.
    + now rewrite E.
    + lia.
  - pose proof (shift_pos_mul n m) as Sm. exists (shift_pos n m), f.
    assert (Ed : digits (shift_pos n m) = digits m + Zpos n) by (apply digits_shift; lia).
    assert (Es : digits (shift_pos n m) + f = digits m + e) by lia.
    rewrite (round_aux s (shift_pos n m) f (shift_pos n m)); rewrite ?Es; fold f.
    + repeat split; try lia. * apply Good; [pose proof (digits_pos (shift_pos n m)); lia|lia].
      * rewrite <- Ev, Sm. replace (e + 1074) with (Zpos n + (f + 1074)) by lia. rewrite (Z.pow_add_r 2 (Zpos n) (f + 1074)) by lia. ring.
    + lia.
    + rewrite Z.sub_diag, Z.pow_0_r. lia.
    + lia.
Qed.

Lemma valid_exponent m e : bounded 53 1024 m e = true -> -1074 <= e <= 971 /\ digits m <= 53 /\ (-1074 < e -> digits m = 53).
Proof.
  unfold bounded, canonical_mantissa. intro H. apply andb_prop in H as [H1 H2]. apply Zeq_bool_eq in H1. apply Z.leb_le in H2.
  change (Zpos (digits2_pos m)) with (digits m) in H1. rewrite fexp64 in H1. unfold emin64 in H1. change (1024 - 53) with 971 in H2. lia.
Qed.

Lemma is_times_round j m e a : -1074 <= e -> 0 <= j <= 2044 -> Z.abs a <= 2 ^ 53 -> m * 2 ^ (e + 1074) = a * 2 ^ j ->
  is_times j (binary_normalize 53 1024 m e false) a.
Proof.
  intros He Hj Ha Ev. assert (Pj : 0 < 2 ^ j) by (apply Z.pow_pos_nonneg; lia).
  assert (Pe : 0 < 2 ^ (e + 1074)) by (apply Z.pow_pos_nonneg; lia).
  destruct m as [|m|m]; cbn [binary_normalize].
  - split; [reflexivity|]. cbn. f_equal. nia.
  - assert (0 < a) by nia. destruct (round_exact false m e a j) as (m' & e' & -> & B & L & V); try lia.
    split; [exact B|]. unfold worth. f_equal. nia.
  - assert (a < 0) by nia. destruct (round_exact true m e (- a) j) as (m' & e' & -> & B & L & V); try lia.
    split; [exact B|]. unfold worth. f_equal. nia.
Qed.

(** The sum of two doubles that are multiples of the same step *)
Lemma f_add_exact j x y a b : 0 <= j <= 2044 -> is_times j x a -> is_times j y b -> Z.abs (a + b) <= 2 ^ 53 ->
  is_times j (f_add x y) (a + b).
Proof.
  intros Hj [Vx Wx] [Vy Wy] Ha. assert (Pj : 0 < 2 ^ j) by (apply Z.pow_pos_nonneg; lia).
  destruct x as [sx|sx| |sx mx ex]; try discriminate; destruct y as [sy|sy| |sy my ey]; try discriminate; unfold worth in Wx, Wy.
  - injection Wx as Wx. injection Wy as Wy. assert (a = 0) by nia. assert (b = 0) by nia. subst. unfold f_add, SFadd.
    destruct (Bool.eqb sx sy); split; reflexivity.
  - injection Wx as Wx. assert (a = 0) by nia. subst. split; [exact Vy|]. exact Wy.
  - injection Wy as Wy. assert (b = 0) by nia. subst. rewrite Z.add_0_r. split; [exact Vx|]. exact Wx.
  - apply valid_exponent in Vx as (Ex & _), Vy as (Ey & _). injection Wx as Wx. injection Wy as Wy.
    unfold f_add, SFadd. set (ez := Z.min ex ey).
    assert (A : forall m e, ez <= e -> Zpos (fst (shl_align m e ez)) = Zpos m * 2 ^ (e - ez)).
    { intros m e L. unfold shl_align. destruct (ez - e) as [|n|n] eqn:E; cbn [fst]; [|lia|].
      - replace (e - ez) with 0 by lia. lia.
      - rewrite shift_pos_mul. f_equal. f_equal. lia. }
    apply is_times_round; try lia. rewrite !A by lia.
    assert (P : forall m e, ez <= e -> m * 2 ^ (e - ez) * 2 ^ (ez + 1074) = m * 2 ^ (e + 1074)).
    { intros m e L. rewrite <- Z.mul_assoc, <- Z.pow_add_r by lia. do 2 f_equal. lia. }
    pose proof (P (Zpos mx) ex ltac:(lia)) as P1. pose proof (P (Zpos my) ey ltac:(lia)) as P2.
    rewrite Z.mul_add_distr_r, (Z.mul_add_distr_r a b), <- Wx, <- Wy.
    destruct sx, sy; unfold cond_Zopp; rewrite ?Z.mul_opp_l; rewrite ?P1, ?P2; ring.
Qed.

(** Products with 0 and 1 *)
Lemma f_mul_bit j x a b : is_times j x a -> is_times j (f_mul x (f_bit b)) (a * bz b).
Proof.
  intros [V W]. destruct b; cbn [bz f_bit].
  - rewrite Z.mul_1_r. destruct x as [s|s| |s m e]; try discriminate.
    + split; [reflexivity|]. exact W.
    + replace (f_mul (S754_finite s m e) f_one) with (S754_finite s m e); [split; assumption|]. symmetry.
      unfold f_mul, f_one, SFmul. rewrite Bool.xorb_false_r. destruct (valid_exponent _ _ V) as (Ee & Ed & Ed').
      set (q := (m * 4503599627370496)%positive).
      assert (Eq : Zpos q = Zpos m * 2 ^ 52) by (unfold q; rewrite Pos2Z.inj_mul; reflexivity).
      assert (Dq : digits q = digits m + 52) by (apply digits_shift; [lia|exact Eq]).
      assert (Fq : fexp 53 1024 (digits q + (e + -52)) = e) by (rewrite fexp64; unfold emin64; lia).
      rewrite (round_aux s q (e + -52) m); rewrite ?Fq; try lia; [reflexivity|].
      replace (e - (e + -52)) with 52 by lia. exact Eq.
  - rewrite Z.mul_0_r. destruct x as [s|s| |s m e]; try discriminate; split; reflexivity.
Qed.

(** Comparisons *)
Lemma compare_worth x y a b : is_double x -> is_double y -> worth x = Some a -> worth y = Some b -> SFcompare x y = Some (a ?= b).
Proof.
  intros Vx Vy Wx Wy. destruct x as [sx|sx| |sx mx ex]; try discriminate; destruct y as [sy|sy| |sy my ey]; try discriminate; unfold worth in Wx, Wy.
  - now injection Wx as <-; injection Wy as <-.
  - injection Wx as <-. apply valid_exponent in Vy as (Ey & _). assert (0 < 2 ^ (ey + 1074)) by (apply Z.pow_pos_nonneg; lia).
    assert (E : b = (if sy then -1 else 1) * Zpos my * 2 ^ (ey + 1074)) by congruence. rewrite E. cbn [SFcompare]. f_equal. symmetry.
    destruct sy; [apply Z.compare_gt_iff|apply Z.compare_lt_iff]; nia.
  - injection Wy as <-. apply valid_exponent in Vx as (Ex & _). assert (0 < 2 ^ (ex + 1074)) by (apply Z.pow_pos_nonneg; lia).
    assert (E : a = (if sx then -1 else 1) * Zpos mx * 2 ^ (ex + 1074)) by congruence. rewrite E. cbn [SFcompare]. f_equal. symmetry.
    destruct sx; [apply Z.compare_lt_iff|apply Z.compare_gt_iff]; nia.
  - apply valid_exponent in Vx as (Ex & Dx & Dx'), Vy as (Ey & Dy & Dy').
    assert (Ea : a = (if sx then -1 else 1) * Zpos mx * 2 ^ (ex + 1074)) by congruence.
    assert (Eb : b = (if sy then -1 else 1) * Zpos my * 2 ^ (ey + 1074)) by congruence.
    assert (Px : 0 < 2 ^ (ex + 1074)) by (apply Z.pow_pos_nonneg; lia).
    assert (Py : 0 < 2 ^ (ey + 1074)) by (apply Z.pow_pos_nonneg; lia).
    assert (LL : forall m e m' e', -1074 <= e -> e < e' -> digits m <= 53 -> digits m' = 53 -> Zpos m * 2 ^ (e + 1074) < Zpos m' * 2 ^ (e' + 1074)).
    { intros m e m' e' L0 L1 L2 L3. pose proof (digits_bounds m) as [_ B]. pose proof (digits_bounds m') as [B' _]. rewrite L3 in B'.
      assert (2 ^ digits m <= 2 ^ 53) by (apply Z.pow_le_mono_r; lia). 
      assert (2 ^ 53 * 2 ^ (e + 1074) <= 2 ^ (53 - 1) * 2 ^ (e' + 1074)) by (rewrite <- !Z.pow_add_r by lia; apply Z.pow_le_mono_r; lia).
      assert (0 < 2 ^ (e + 1074)) by (apply Z.pow_pos_nonneg; lia). assert (0 < 2 ^ (e' + 1074)) by (apply Z.pow_pos_nonneg; lia). nia. }
    assert (C : match ex ?= ey with Lt => Lt | Gt => Gt | Eq => Pos.compare_cont Eq mx my end = (Zpos mx * 2 ^ (ex + 1074) ?= Zpos my * 2 ^ (ey + 1074))).
    { destruct (Z.compare_spec ex ey) as [E|L|L].
      - subst ey. rewrite <- Zmult_compare_compat_r by lia. reflexivity.
      - symmetry. apply Z.compare_lt_iff. apply LL; lia.
      - symmetry. apply Z.compare_gt_iff. apply LL; lia. }
    cbn [SFcompare]. f_equal. rewrite Ea, Eb. clear Ea Eb Wx Wy LL.
    set (u := Zpos mx * 2 ^ (ex + 1074)) in *. set (w := Zpos my * 2 ^ (ey + 1074)) in *.
    assert (0 < u) by (unfold u; nia). assert (0 < w) by (unfold w; nia).
    destruct sx, sy.
    + replace (-1 * Zpos mx * 2 ^ (ex + 1074)) with (- u) by (unfold u; ring). replace (-1 * Zpos my * 2 ^ (ey + 1074)) with (- w) by (unfold w; ring).
      rewrite Z.compare_opp, (Z.compare_antisym u w), <- C. destruct (ex ?= ey); reflexivity.
    + symmetry. apply Z.compare_lt_iff. unfold u, w in *. nia.
    + symmetry. apply Z.compare_gt_iff. unfold u, w in *. nia.
    + replace (1 * Zpos mx * 2 ^ (ex + 1074)) with u by (unfold u; ring). replace (1 * Zpos my * 2 ^ (ey + 1074)) with w by (unfold w; ring). exact C.
Qed.

Lemma f_lt_exact j x y a b : 0 <= j -> is_times j x a -> is_times j y b -> f_lt x y = (a <? b).
Proof.
  intros Hj [Vx Wx] [Vy Wy]. assert (Pj : 0 < 2 ^ j) by (apply Z.pow_pos_nonneg; lia).
  unfold f_lt, SFltb. rewrite (compare_worth _ _ _ _ Vx Vy Wx Wy). rewrite <- Zmult_compare_compat_r by lia. reflexivity.
Qed.

(** The sums of an objective function *)
Section Objective.
Variable j : Z.
Hypothesis Hj : 0 <= j <= 2044.

Notation mag_l zl := (fold_right (fun e s => Z.abs (o_factor e) + s) 0 zl).
Notation mag_q zq := (fold_right (fun e s => Z.abs (q_factor e) + s) 0 zq).
Notation same_l := (Forall2 (fun e ze => is_times j (d_factor e) (o_factor ze) /\ d_var e = o_var ze)).
Notation same_q := (Forall2 (fun e ze => is_times j (dq_factor e) (q_factor ze) /\ dq_vara e = q_vara ze /\ dq_varb e = q_varb ze)).

Lemma mag_l_nonneg (zl : list oelem) : 0 <= mag_l zl.
Proof. induction zl; cbn; lia. Qed.
Lemma mag_q_nonneg (zl : list qelem) : 0 <= mag_q zl.
Proof. induction zl; cbn; lia. Qed.
Lemma lin_value_bound x zl : Z.abs (lin_value x zl) <= mag_l zl.
Proof. induction zl as [|e l IH]; cbn; [lia|]. destruct (x (o_var e)); cbn [bz]; lia. Qed.
Lemma quad_value_bound x zl : Z.abs (quad_value x zl) <= mag_q zl.
Proof. induction zl as [|e l IH]; cbn; [lia|]. destruct (x (q_vara e)), (x (q_varb e)); cbn [bz]; lia. Qed.

Lemma nth_assigns (x : list bool) i b : nth_error x i = Some b -> assigns x i = b.
Proof. intro H. unfold assigns. now apply nth_error_nth. Qed.

Lemma dresults_lin_exact x : forall l zl, same_l l zl -> (forall e, In e zl -> (o_var e < length x)%nat) ->
  forall v z, is_times j v z -> Z.abs z + mag_l zl <= 2 ^ 53 ->
  exists v', dresults_lin x l v = Some v' /\ is_times j v' (z + lin_value (assigns x) zl).
Proof.
  intros l zl H; induction H as [|e ze l zl [He Hv] HF IH]; intros K v z Hz B; cbn [dresults_lin lin_value fold_right] in *.
  - exists v. rewrite Z.add_0_r. auto.
  - rewrite Hv. destruct (nth_error x (o_var ze)) as [b|] eqn:E; [|apply nth_error_None in E; specialize (K ze (or_introl eq_refl)); lia].
    cbn [bind]. rewrite (nth_assigns _ _ _ E). pose proof (mag_l_nonneg zl).
    destruct (IH (fun e I => K e (or_intror I)) (if b then f_add v (d_factor e) else v) (z + o_factor ze * bz b)) as (v' & R & T).
    + destruct b; cbn [bz]; rewrite ?Z.mul_1_r, ?Z.mul_0_r, ?Z.add_0_r; [|exact Hz]. apply f_add_exact; auto. lia.
    + destruct b; cbn [bz]; lia.
    + exists v'. split; [exact R|]. now rewrite Z.add_assoc.
Qed.

Lemma dresults_quad_exact x : forall l zl, same_q l zl -> (forall e, In e zl -> (q_vara e < length x)%nat /\ (q_varb e < length x)%nat) ->
  forall v z, is_times j v z -> Z.abs z + mag_q zl <= 2 ^ 53 ->
  exists v', dresults_quad x l v = Some v' /\ is_times j v' (z + quad_value (assigns x) zl).
Proof.
  intros l zl H; induction H as [|e ze l zl (He & Hv & Hw) HF IH]; intros K v z Hz B; cbn [dresults_quad quad_value fold_right] in *.
  - exists v. rewrite Z.add_0_r. auto.
  - rewrite Hv, Hw. destruct (K ze (or_introl eq_refl)) as [K1 K2].
    destruct (nth_error x (q_vara ze)) as [a|] eqn:E; [|apply nth_error_None in E; lia].
    destruct (nth_error x (q_varb ze)) as [b|] eqn:E'; [|apply nth_error_None in E'; lia].
    cbn [bind]. rewrite (nth_assigns _ _ _ E), (nth_assigns _ _ _ E'). pose proof (mag_q_nonneg zl).
    destruct (IH (fun e I => K e (or_intror I)) (if a && b then f_add v (dq_factor e) else v) (z + q_factor ze * (bz a * bz b))) as (v' & R & T).
    + destruct a, b; cbn [bz andb]; rewrite ?Z.mul_1_r, ?Z.mul_0_r, ?Z.add_0_r; try exact Hz. apply f_add_exact; auto. lia.
    + destruct a, b; cbn [bz]; lia.
    + exists v'. split; [|now rewrite Z.add_assoc]. destruct a; cbn [bind andb]; [|destruct b]; exact R.
Qed.

Lemma dresults_exact o zo x : same_objective j o zo -> magnitude zo <= 2 ^ 53 -> known_variables zo (length x) ->
  exists v, dresults o x = Some v /\ is_times j v (objective_value (assigns x) zo).
Proof.
  intros (Hv & Hl & Hq) B [Kl Kq]. unfold magnitude in B. pose proof (mag_q_nonneg (o_qelements zo)).
  destruct (dresults_lin_exact x _ _ Hl Kl _ _ Hv) as (v & R & T); [lia|].
  pose proof (lin_value_bound (assigns x) (o_elements zo)).
  destruct (dresults_quad_exact x _ _ Hq Kq _ _ T) as (w & R' & T'); [lia|].
  exists w. unfold dresults. rewrite R. cbn [bind]. auto.
Qed.

Lemma dadd_linear_exact x : forall l zl, same_l l zl -> (forall e, In e zl -> (o_var e < length x)%nat) ->
  forall v z, is_times j v z -> Z.abs z + mag_l zl <= 2 ^ 53 ->
  exists v', dadd_linear x l v = Some v' /\ is_times j v' (z + lin_value (assigns x) zl).
Proof.
  intros l zl H; induction H as [|e ze l zl [He Hv] HF IH]; intros K v z Hz B; cbn [dadd_linear lin_value fold_right] in *.
  - exists v. rewrite Z.add_0_r. auto.
  - rewrite Hv. destruct (nth_error x (o_var ze)) as [b|] eqn:E; [|apply nth_error_None in E; specialize (K ze (or_introl eq_refl)); lia].
    cbn [bind]. rewrite (nth_assigns _ _ _ E). pose proof (mag_l_nonneg zl).
    destruct (IH (fun e I => K e (or_intror I)) (f_add v (f_mul (d_factor e) (f_bit b))) (z + o_factor ze * bz b)) as (v' & R & T).
    + apply f_add_exact; auto; [now apply f_mul_bit|]. destruct b; cbn [bz]; lia.
    + destruct b; cbn [bz]; lia.
    + exists v'. split; [exact R|]. now rewrite Z.add_assoc.
Qed.

Lemma dadd_quadratic_exact x : forall l zl, same_q l zl -> (forall e, In e zl -> (q_vara e < length x)%nat /\ (q_varb e < length x)%nat) ->
  forall v z, is_times j v z -> Z.abs z + mag_q zl <= 2 ^ 53 ->
  exists v', dadd_quadratic x l v = Some v' /\ is_times j v' (z + quad_value (assigns x) zl).
Proof.
  intros l zl H; induction H as [|e ze l zl (He & Hv & Hw) HF IH]; intros K v z Hz B; cbn [dadd_quadratic quad_value fold_right] in *.
  - exists v. rewrite Z.add_0_r. auto.
  - rewrite Hv, Hw. destruct (K ze (or_introl eq_refl)) as [K1 K2].
    destruct (nth_error x (q_vara ze)) as [a|] eqn:E; [|apply nth_error_None in E; lia].
    destruct (nth_error x (q_varb ze)) as [b|] eqn:E'; [|apply nth_error_None in E'; lia].
    cbn [bind]. rewrite (nth_assigns _ _ _ E), (nth_assigns _ _ _ E'). pose proof (mag_q_nonneg zl).
    destruct (IH (fun e I => K e (or_intror I)) (f_add v (f_mul (f_mul (dq_factor e) (f_bit a)) (f_bit b))) (z + q_factor ze * (bz a * bz b)))
      as (v' & R & T).
    + apply f_add_exact; auto; [rewrite Z.mul_assoc; now apply f_mul_bit, f_mul_bit|]. destruct a, b; cbn [bz]; lia.
    + destruct a, b; cbn [bz]; lia.
    + exists v'. split; [exact R|]. now rewrite Z.add_assoc.
Qed.

Lemma dcompute_solution_exact o zo x : same_objective j o zo -> magnitude zo <= 2 ^ 53 -> known_variables zo (length x) -> x <> [] ->
  exists v, dcompute_solution o x = Some v /\ is_times j v (objective_value (assigns x) zo).
Proof.
  intros (Hv & Hl & Hq) B [Kl Kq] Ne. unfold magnitude in B. pose proof (mag_q_nonneg (o_qelements zo)).
  destruct (dadd_linear_exact x _ _ Hl Kl _ _ Hv) as (v & R & T); [lia|].
  pose proof (lin_value_bound (assigns x) (o_elements zo)).
  destruct (dadd_quadratic_exact x _ _ Hq Kq _ _ T) as (w & R' & T'); [lia|].
  exists w. unfold dcompute_solution. destruct x; [congruence|]. rewrite R. cbn [bind]. auto.
Qed.

(** The sum of the negative factors and of the positive ones *)
Lemma dadd_min_max_exact f zf m a b : is_times j f zf -> is_times j (fst m) a -> is_times j (snd m) b ->
  Z.abs (a + Z.min zf 0) <= 2 ^ 53 -> Z.abs (b + Z.max zf 0) <= 2 ^ 53 ->
  is_times j (fst (dadd_min_max f m)) (a + Z.min zf 0) /\ is_times j (snd (dadd_min_max f m)) (b + Z.max zf 0).
Proof.
  intros Hf Ha Hb B1 B2. unfold dadd_min_max.
  assert (H0 : is_times j f_zero 0) by (split; reflexivity).
  rewrite (f_lt_exact j f f_zero zf 0 ltac:(lia) Hf H0). destruct (Z.ltb_spec zf 0); cbn [fst snd].
  - rewrite Z.min_l, Z.max_r, Z.add_0_r in * by lia. split; [|exact Hb]. apply f_add_exact; auto.
  - rewrite Z.min_r, Z.max_l, Z.add_0_r in * by lia. split; [exact Ha|]. apply f_add_exact; auto.
Qed.

Notation neg_l zl := (fold_right (fun e s => Z.min (o_factor e) 0 + s) 0 zl).
Notation pos_l zl := (fold_right (fun e s => Z.max (o_factor e) 0 + s) 0 zl).
Notation neg_q zl := (fold_right (fun e s => Z.min (q_factor e) 0 + s) 0 zl).
Notation pos_q zl := (fold_right (fun e s => Z.max (q_factor e) 0 + s) 0 zl).

Lemma min_max_l l zl : same_l l zl -> forall m a b, is_times j (fst m) a -> is_times j (snd m) b ->
  Z.abs a + mag_l zl <= 2 ^ 53 -> Z.abs b + mag_l zl <= 2 ^ 53 ->
  let r := fold_left (fun m e => dadd_min_max (d_factor e) m) l m in
  is_times j (fst r) (a + neg_l zl) /\ is_times j (snd r) (b + pos_l zl).
Proof.
  intro H; induction H as [|e ze l zl [He Hv] HF IH]; intros m a b Ha Hb Ba Bb; cbn [fold_left fold_right] in *.
  - rewrite !Z.add_0_r. auto.
  - pose proof (mag_l_nonneg zl). destruct (dadd_min_max_exact _ _ m _ _ He Ha Hb) as [Ha' Hb']; try lia.
    rewrite !Z.add_assoc. apply IH; auto; lia.
Qed.
Lemma min_max_q l zl : same_q l zl -> forall m a b, is_times j (fst m) a -> is_times j (snd m) b ->
  Z.abs a + mag_q zl <= 2 ^ 53 -> Z.abs b + mag_q zl <= 2 ^ 53 ->
  let r := fold_left (fun m e => dadd_min_max (dq_factor e) m) l m in
  is_times j (fst r) (a + neg_q zl) /\ is_times j (snd r) (b + pos_q zl).
Proof.
  intro H; induction H as [|e ze l zl (He & Hv & Hw) HF IH]; intros m a b Ha Hb Ba Bb; cbn [fold_left fold_right] in *.
  - rewrite !Z.add_0_r. auto.
  - pose proof (mag_q_nonneg zl). destruct (dadd_min_max_exact _ _ m _ _ He Ha Hb) as [Ha' Hb']; try lia.
    rewrite !Z.add_assoc. apply IH; auto; lia.
Qed.
Lemma neg_pos_l zl : - mag_l zl <= neg_l zl /\ neg_l zl <= 0 /\ pos_l zl <= mag_l zl /\ 0 <= pos_l zl.
Proof. induction zl; cbn; lia. Qed.

Lemma dmin_max_exact o zo : same_objective j o zo -> magnitude zo <= 2 ^ 53 ->
  is_times j (fst (dmin_max o)) (o_value zo + neg_l (o_elements zo) + neg_q (o_qelements zo)) /\
  is_times j (snd (dmin_max o)) (o_value zo + pos_l (o_elements zo) + pos_q (o_qelements zo)).
Proof.
  intros (Hv & Hl & Hq) B. unfold magnitude in B. pose proof (mag_q_nonneg (o_qelements zo)).
  pose proof (neg_pos_l (o_elements zo)). pose proof (mag_l_nonneg (o_elements zo)).
  destruct (min_max_l _ _ Hl (do_value o, do_value o) _ _ Hv Hv) as [M1 M2]; try lia.
  unfold dmin_max. apply (min_max_q _ _ Hq); auto; lia.
Qed.
End Objective.

(** The model with integers computes the same *)
Lemma results_lin_value x zl : (forall e, In e zl -> (o_var e < length x)%nat) ->
  forall z, results_lin x zl z = Some (z + lin_value (assigns x) zl).
Proof.
  induction zl as [|e zl IH]; intros K z; cbn [results_lin lin_value]; [now rewrite Z.add_0_r|].
  destruct (nth_error x (o_var e)) as [b|] eqn:E; [|apply nth_error_None in E; specialize (K e (or_introl eq_refl)); lia].
  cbn [bind]. rewrite IH by (intros; apply K; now right). rewrite (nth_assigns _ _ _ E). f_equal. destruct b; cbn [bz]; lia.
Qed.
Lemma results_quad_value x zl : (forall e, In e zl -> (q_vara e < length x)%nat /\ (q_varb e < length x)%nat) ->
  forall z, results_quad x zl z = Some (z + quad_value (assigns x) zl).
Proof.
  induction zl as [|e zl IH]; intros K z; cbn [results_quad quad_value]; [now rewrite Z.add_0_r|].
  destruct (K e (or_introl eq_refl)) as [K1 K2].
  destruct (nth_error x (q_vara e)) as [a|] eqn:E; [|apply nth_error_None in E; lia].
  destruct (nth_error x (q_varb e)) as [b|] eqn:E'; [|apply nth_error_None in E'; lia].
  rewrite (nth_assigns _ _ _ E), (nth_assigns _ _ _ E').
  destruct a; cbn [bind andb]; [destruct b|]; rewrite IH by (intros; apply K; now right); f_equal; cbn [bz]; lia.
Qed.
Lemma results_value zo x : known_variables zo (length x) -> results zo x = Some (objective_value (assigns x) zo).
Proof.
  intros [K1 K2]. unfold results, objective_value. rewrite results_lin_value by exact K1. cbn [bind]. now apply results_quad_value.
Qed.

Lemma is_times_finite j x z : is_times j x z -> f_lt x (S754_infinity false) = true /\ f_lt (S754_infinity true) x = true.
Proof. intros [_ W]. destruct x; try discriminate; split; reflexivity. Qed.

(** The objective function of the reduced problem *)
Lemma dcopy_linear_exact j (Hj : 0 <= j <= 2044) m : forall l zl,
  Forall2 (fun e ze => is_times j (d_factor e) (o_factor ze) /\ d_var e = o_var ze) l zl ->
  forall v z zr, is_times j v z -> Z.abs z + fold_right (fun e s => Z.abs (o_factor e) + s) 0 zl <= 2 ^ 53 -> copy_linear m zl z = Some zr ->
  exists r, dcopy_linear m l v = Some r /\
    Forall2 (fun e ze => is_times j (d_factor e) (o_factor ze) /\ d_var e = o_var ze) (fst r) (fst zr) /\ is_times j (snd r) (snd zr) /\
    Z.abs (snd zr) + fold_right (fun e s => Z.abs (o_factor e) + s) 0 (fst zr) <= 2 ^ 53.
Proof.
  assert (G : forall l zl,
    Forall2 (fun e ze => is_times j (d_factor e) (o_factor ze) /\ d_var e = o_var ze) l zl ->
    forall v z zr, is_times j v z -> Z.abs z + fold_right (fun e s => Z.abs (o_factor e) + s) 0 zl <= 2 ^ 53 -> copy_linear m zl z = Some zr ->
    exists r, dcopy_linear m l v = Some r /\
      Forall2 (fun e ze => is_times j (d_factor e) (o_factor ze) /\ d_var e = o_var ze) (fst r) (fst zr) /\ is_times j (snd r) (snd zr) /\
      Z.abs (snd zr) + fold_right (fun e s => Z.abs (o_factor e) + s) 0 (fst zr) <= Z.abs z + fold_right (fun e s => Z.abs (o_factor e) + s) 0 zl).
  { intros l zl H; induction H as [|e ze l zl [He Hv] HF IH]; intros v z zr Hz B C; cbn [dcopy_linear copy_linear fold_right] in *.
    - injection C as <-. exists ([], v). cbn [fst snd fold_right]. split; [reflexivity|]. split; [constructor|]. split; [exact Hz|lia].
    - rewrite Hv. destruct (nth_error m (o_var ze)) as [[i b]|]; [|discriminate]. cbn [bind fst snd] in *.
      pose proof (mag_l_nonneg zl).
      destruct i as [i|].
      + destruct (copy_linear m zl z) as [zr'|] eqn:E; [|discriminate]. cbn [bind] in C. injection C as <-.
        destruct (IH v z zr' Hz) as (r & -> & R1 & R2 & R3); auto; [lia|].
        eexists. split; [reflexivity|]. cbn [fst snd fold_right o_factor o_var d_factor d_var].
        split; [constructor; auto|]. split; [exact R2|lia].
      + destruct (IH (if b then f_add v (d_factor e) else v) (if b then z + o_factor ze else z) zr) as (r & -> & R1 & R2 & R3); auto.
        * destruct b; [|exact Hz]. apply f_add_exact; auto. lia.
        * destruct b; lia.
        * exists r. split; [reflexivity|]. split; [exact R1|]. split; [exact R2|]. destruct b; lia. }
  intros l zl H v z zr Hz B C. destruct (G l zl H v z zr Hz B C) as (r & R0 & R1 & R2 & R3). exists r. split; [exact R0|]. split; [exact R1|]. split; [exact R2|lia].
Qed.

Lemma dexclude_copy_exact j m o zo zo' : 0 <= j <= 2044 -> magnitude zo <= 2 ^ 53 -> same_objective j o zo -> o_qelements zo = [] ->
  objective_function_exclude_copy m zo (mk_merge_obj [] 0) = Some zo' ->
  exists o', dexclude_copy m o = Some o' /\ same_objective j o' zo' /\ magnitude zo' <= 2 ^ 53.
Proof.
  intros Hj B (Hv & Hl & Hq) Nq C. unfold objective_function_exclude_copy in C. unfold magnitude in B. rewrite Nq in *. cbn [mo_value mo_elements fold_right] in *.
  rewrite Z.add_0_r in C.
  destruct (copy_linear m (o_elements zo) (o_value zo)) as [zr|] eqn:E; [|discriminate]. cbn [bind copy_quadratic merge_elements] in C.
  rewrite app_nil_r in C. injection C as <-.
  assert (H0 : is_times j (f_add (do_value o) f_zero) (o_value zo)).
  { rewrite <- (Z.add_0_r (o_value zo)). apply f_add_exact; auto; [split; reflexivity|]. rewrite Z.add_0_r.
    pose proof (mag_l_nonneg (o_elements zo)). lia. }
  destruct (dcopy_linear_exact j Hj m _ _ Hl _ _ _ H0 ltac:(lia) E) as (r & R0 & R1 & R2 & R3).
  unfold dexclude_copy. rewrite R0. cbn [bind]. eexists. split; [reflexivity|]. split.
  - split; [exact R2|]. split; [exact R1|constructor].
  - unfold magnitude. cbn [o_value o_elements o_qelements fold_right]. lia.
Qed.
