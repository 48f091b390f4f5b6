(** The loops that draw again. *)
From Coq Require Import QArith Qround Lia Lqa.
From Verif Require Import Base Draws_model Draws_spec.
Open Scope Q_scope.

Lemma qlt_spec a b : qlt a b = true <-> a < b.
Proof.
  unfold qlt. rewrite Bool.negb_true_iff. split; intros H.
  - apply Qnot_le_lt. intros K. apply Qle_bool_iff in K. congruence.
  - apply Bool.not_true_iff_false. intros K. apply Qle_bool_iff in K. lra.
Qed.
Lemma outside_false v : outside v = false <-> 0 <= v <= 1.
Proof.
  unfold outside. rewrite Bool.orb_false_iff, <- !Bool.not_true_iff_false, !qlt_spec. split.
  - intros [A B]. split; apply Qnot_lt_le; assumption.
  - intros [A B]. split; lra.
Qed.
Lemma not_inside_false v : not_inside v = false <-> 0 < v < 1.
Proof.
  unfold not_inside. rewrite Bool.orb_false_iff, <- !Bool.not_true_iff_false, !Qle_bool_iff. split.
  - intros [A B]. split; apply Qnot_le_lt; assumption.
  - intros [A B]. split; lra.
Qed.

Lemma reject_good bad mean stddev next : forall fuel i v j, reject fuel bad mean stddev next i = Some (v, j) ->
  bad v = false /\ (i < j)%nat /\ v = normal mean stddev (next (j - 1)%nat).
Proof.
  induction fuel as [|fuel IH]; intros i v j H; cbn [reject] in H; [discriminate|].
  destruct (bad (normal mean stddev (next i))) eqn:B.
  - apply IH in H as (A & L & E). split; [exact A|]. split; [lia|exact E].
  - inversion H; subst. split; [exact B|]. split; [lia|]. now rewrite Nat.sub_1_r.
Qed.
(** The loop ends at the first good number, at the latest at [k]. *)
Lemma reject_ends bad mean stddev next k : bad (normal mean stddev (next k)) = false ->
  forall fuel i, (i <= k)%nat -> (k - i < fuel)%nat -> exists v j, reject fuel bad mean stddev next i = Some (v, j) /\ (j <= S k)%nat.
Proof.
  intros B. induction fuel as [|fuel IH]; intros i L Hf; [lia|]. cbn [reject].
  destruct (bad (normal mean stddev (next i))) eqn:Bi; [|eexists _, _; split; [reflexivity|lia]].
  assert (i <> k) by (intros ->; congruence). apply IH; lia.
Qed.
Lemma reject_more bad mean stddev next : forall a b i v j, reject a bad mean stddev next i = Some (v, j) -> reject (a + b) bad mean stddev next i = Some (v, j).
Proof.
  induction a as [|a IH]; intros b i v j H; cbn [reject Nat.add] in *; [discriminate|]. destruct (bad (normal mean stddev (next i))); [now apply IH|exact H].
Qed.
Lemma reject_never bad mean stddev next : (forall z, bad (normal mean stddev z) = true) -> forall fuel i, reject fuel bad mean stddev next i = None.
Proof. intros B. induction fuel as [|fuel IH]; intros i; cbn [reject]; [reflexivity|]. rewrite B. apply IH. Qed.

(** A number of an interval of the values. *)
Lemma enters_values next mean stddev a b i : enters_every_interval next -> 0 < stddev -> a < b -> exists k, (i <= k)%nat /\ a < normal mean stddev (next k) < b.
Proof.
  intros E S L. destruct (E ((a - mean) / stddev) ((b - mean) / stddev) i) as (k & K & K1 & K2).
  - apply Qlt_shift_div_l; [exact S|]. setoid_replace ((a - mean) / stddev * stddev) with (a - mean) by (field; lra). lra.
  - exists k. split; [exact K|]. unfold normal.
    assert (M1 : (a - mean) / stddev * stddev < next k * stddev) by (apply Qmult_lt_r; assumption).
    assert (M2 : next k * stddev < (b - mean) / stddev * stddev) by (apply Qmult_lt_r; assumption).
    setoid_replace ((a - mean) / stddev * stddev) with (a - mean) in M1 by (field; lra).
    setoid_replace ((b - mean) / stddev * stddev) with (b - mean) in M2 by (field; lra). lra.
Qed.

(** *** The two solutions of a crossover *)
Definition rank (n : nat) (v : Q) : nat := Z.to_nat (Qfloor (inject_Z (Z.of_nat n) * v)).
Lemma rank_of n r v : inject_Z (Z.of_nat r) <= inject_Z (Z.of_nat n) * v -> inject_Z (Z.of_nat n) * v < inject_Z (Z.of_nat (S r)) -> rank n v = r.
Proof.
  intros A B. unfold rank. assert (Qfloor (inject_Z (Z.of_nat n) * v) = Z.of_nat r) as ->; [|apply Nat2Z.id].
  apply Z.le_antisymm.
  - pose proof (Qfloor_le (inject_Z (Z.of_nat n) * v)) as C. assert (D : inject_Z (Qfloor (inject_Z (Z.of_nat n) * v)) < inject_Z (Z.of_nat (S r))) by lra.
    rewrite <- Zlt_Qlt in D. lia.
  - rewrite <- (Qfloor_Z (Z.of_nat r)). now apply Qfloor_resp_le.
Qed.
Lemma rank_lt n v : (0 < n)%nat -> 0 <= v -> v < 1 -> (rank n v < n)%nat.
Proof.
  intros N A B. unfold rank. assert (P : 0 < inject_Z (Z.of_nat n)) by (change 0 with (inject_Z 0); rewrite <- Zlt_Qlt; lia).
  assert (M : inject_Z (Z.of_nat n) * v < inject_Z (Z.of_nat n)) by (setoid_replace (inject_Z (Z.of_nat n)) with (inject_Z (Z.of_nat n) * 1) at 2 by ring; apply Qmult_lt_l; assumption).
  pose proof (Qfloor_le (inject_Z (Z.of_nat n) * v)) as C.
  assert (D : inject_Z (Qfloor (inject_Z (Z.of_nat n) * v)) < inject_Z (Z.of_nat n)) by lra. rewrite <- Zlt_Qlt in D. lia.
Qed.
Lemma rank_one n : rank n 1 = n.
Proof. unfold rank. setoid_replace (inject_Z (Z.of_nat n) * 1) with (inject_Z (Z.of_nat n)) by ring. now rewrite Qfloor_Z, Nat2Z.id. Qed.
Lemma rank_eq n v w : v == w -> rank n v = rank n w.
Proof. intros E. unfold rank. now rewrite E. Qed.

Lemma pick_ok fuel ids mean stddev next i o j : (0 < length ids)%nat -> (forall k, ~ normal mean stddev (next k) == 1) ->
  pick fuel ids mean stddev next i = Some (o, j) ->
  (i < j)%nat /\ exists id, o = Ok id /\ nth_error ids (rank (length ids) (normal mean stddev (next (j - 1)%nat))) = Some id.
Proof.
  intros N One. unfold pick. destruct (reject fuel outside mean stddev next i) as [[v j']|] eqn:R; cbn [bind]; [|discriminate]. intros H.
  apply reject_good in R as (B & L & ->). apply outside_false in B.
  fold (rank (length ids) (normal mean stddev (next (j' - 1)%nat))) in H.
  assert (B' : normal mean stddev (next (j' - 1)%nat) < 1).
  { destruct (Qlt_le_dec (normal mean stddev (next (j' - 1)%nat)) 1) as [|C]; [assumption|]. exfalso. apply (One (j' - 1)%nat). lra. }
  pose proof (rank_lt (length ids) _ N (proj1 B) B') as K. apply nth_error_Some in K.
  destruct (nth_error ids (rank (length ids) (normal mean stddev (next (j' - 1)%nat)))) as [id|] eqn:E; [|congruence].
  inversion H; subst. split; [exact L|]. exists id. auto.
Qed.
Lemma pick_ends ids mean stddev next k : 0 <= normal mean stddev (next k) <= 1 -> forall fuel i, (i <= k)%nat -> (k - i < fuel)%nat ->
  exists o j, pick fuel ids mean stddev next i = Some (o, j) /\ (j <= S k)%nat.
Proof.
  intros B fuel i L Hf. unfold pick. destruct (reject_ends outside mean stddev next k (proj2 (outside_false _) B) fuel i L Hf) as (v & j & -> & J). cbn [bind]. eauto.
Qed.
Lemma other_ends ids mean stddev next first k : (0 < length ids)%nat -> (forall k, ~ normal mean stddev (next k) == 1) ->
  0 <= normal mean stddev (next k) <= 1 -> nth_error ids (rank (length ids) (normal mean stddev (next k))) <> Some first ->
  forall outer fuel i, (i <= k)%nat -> (k - i < outer)%nat -> (k < fuel)%nat ->
  exists second j, other outer fuel ids mean stddev next first i = Some (Ok second, j) /\ second <> first /\ In second ids.
Proof.
  intros N One B D. induction outer as [|outer IH]; intros fuel i L Ho Hf; [lia|]. cbn [other].
  destruct (pick_ends ids mean stddev next k B fuel i L) as (o & j & P & J); [lia|]. rewrite P. cbn [bind].
  apply pick_ok in P as (I & id & -> & E); [|assumption|assumption].
  destruct (Nat.eqb_spec first id) as [->|Ne].
  - assert (j <> S k). { intros ->. apply D. replace (S k - 1)%nat with k in E by lia. exact E. }
    destruct (IH fuel j) as (s2 & j2 & Hs & Hs2); [lia|lia|exact Hf|]. rewrite Hs. eauto.
  - exists id, j. split; [reflexivity|]. split; [congruence|]. eapply nth_error_In; eassumption.
Qed.
Lemma enters_rank next mean stddev n r i : enters_every_interval next -> 0 < stddev -> (r < n)%nat ->
  exists k, (i <= k)%nat /\ 0 <= normal mean stddev (next k) <= 1 /\ rank n (normal mean stddev (next k)) = r.
Proof.
  intros E S R. assert (P : 0 < inject_Z (Z.of_nat n)) by (change 0 with (inject_Z 0); rewrite <- Zlt_Qlt; lia).
  assert (P0 : 0 <= inject_Z (Z.of_nat r)) by (change 0 with (inject_Z 0); rewrite <- Zle_Qle; lia).
  assert (P1 : inject_Z (Z.of_nat (Datatypes.S r)) <= inject_Z (Z.of_nat n)) by (rewrite <- Zle_Qle; lia).
  assert (P2 : inject_Z (Z.of_nat r) < inject_Z (Z.of_nat (Datatypes.S r))) by (rewrite <- Zlt_Qlt; lia).
  destruct (enters_values next mean stddev (inject_Z (Z.of_nat r) / inject_Z (Z.of_nat n)) (inject_Z (Z.of_nat (Datatypes.S r)) / inject_Z (Z.of_nat n)) i E S) as (k & K & K1 & K2).
  { apply Qlt_shift_div_l; [exact P|]. setoid_replace (inject_Z (Z.of_nat r) / inject_Z (Z.of_nat n) * inject_Z (Z.of_nat n)) with (inject_Z (Z.of_nat r)) by (field; lra). exact P2. }
  exists k. split; [exact K|]. set (v := normal mean stddev (next k)) in *.
  assert (A : inject_Z (Z.of_nat r) < inject_Z (Z.of_nat n) * v).
  { assert (M : inject_Z (Z.of_nat r) / inject_Z (Z.of_nat n) * inject_Z (Z.of_nat n) < v * inject_Z (Z.of_nat n)) by (apply Qmult_lt_r; assumption).
    setoid_replace (inject_Z (Z.of_nat r) / inject_Z (Z.of_nat n) * inject_Z (Z.of_nat n)) with (inject_Z (Z.of_nat r)) in M by (field; lra). lra. }
  assert (C : inject_Z (Z.of_nat n) * v < inject_Z (Z.of_nat (Datatypes.S r))).
  { assert (M : v * inject_Z (Z.of_nat n) < inject_Z (Z.of_nat (Datatypes.S r)) / inject_Z (Z.of_nat n) * inject_Z (Z.of_nat n)) by (apply Qmult_lt_r; assumption).
    setoid_replace (inject_Z (Z.of_nat (Datatypes.S r)) / inject_Z (Z.of_nat n) * inject_Z (Z.of_nat n)) with (inject_Z (Z.of_nat (Datatypes.S r))) in M by (field; lra). lra. }
  split; [|apply rank_of; lra]. split.
  - apply (Qmult_le_l 0 v (inject_Z (Z.of_nat n)) P). lra.
  - apply (Qmult_le_l v 1 (inject_Z (Z.of_nat n)) P). lra.
Qed.
Lemma parents_end ids mean stddev next i : (2 <= length ids)%nat -> NoDup ids -> enters_every_interval next -> 0 < stddev ->
  (forall k, ~ normal mean stddev (next k) == 1) ->
  exists outer fuel first second j, parents outer fuel ids mean stddev next i = Some (Ok (first, second), j) /\ first <> second /\ In first ids /\ In second ids.
Proof.
  intros N D E S One.
  destruct (enters_rank next mean stddev (length ids) 0 i E S) as (k0 & K0 & B0 & R0); [lia|].
  destruct (pick_ends ids mean stddev next k0 B0 (Datatypes.S k0) i K0) as (o & i1 & P & I1); [lia|].
  assert (P' := P). apply pick_ok in P' as (I & first & -> & F); [|lia|assumption]. set (r1 := rank _ _) in F.
  set (r2 := if Nat.eqb r1 0 then 1%nat else 0%nat).
  destruct (enters_rank next mean stddev (length ids) r2 i1 E S) as (k & K & B & R); [unfold r2; destruct (Nat.eqb r1 0); lia|].
  assert (Ne : nth_error ids (rank (length ids) (normal mean stddev (next k))) <> Some first).
  { rewrite R. intros G. assert (r2 = r1).
    { apply (proj1 (NoDup_nth_error ids) D); [apply nth_error_Some; congruence|congruence]. }
    unfold r2 in H. destruct (Nat.eqb_spec r1 0); lia. }
  assert (P2 : pick (Datatypes.S (k0 + k)) ids mean stddev next i = Some (Ok first, i1)).
  { revert P. unfold pick. destruct (reject (Datatypes.S k0) outside mean stddev next i) as [[v j]|] eqn:R1; cbn [bind]; [|discriminate].
    assert (M : reject (Datatypes.S (k0 + k)) outside mean stddev next i = Some (v, j)).
    { exact (reject_more _ _ _ _ (Datatypes.S k0) k i v j R1). }
    rewrite M. cbn [bind]. auto. }
  destruct (other_ends ids mean stddev next first k ltac:(lia) One B Ne (Datatypes.S k) (Datatypes.S (k0 + k)) i1 K ltac:(lia) ltac:(lia)) as (second & j & O & Ns & In2).
  exists (Datatypes.S k), (Datatypes.S (k0 + k)), first, second, j. unfold parents. rewrite P2. cbn [bind]. rewrite O. cbn [bind].
  split; [reflexivity|]. split; [congruence|]. split; [eapply nth_error_In; exact F|exact In2].
Qed.

(** With a standard deviation of zero all the picks are the same. *)
Lemma normal_const mean stddev z : stddev == 0 -> normal mean stddev z == mean.
Proof. intros E. unfold normal. rewrite E. ring. Qed.
Lemma pick_const fuel ids mean stddev next i o j : stddev == 0 -> pick fuel ids mean stddev next i = Some (o, j) ->
  o = match nth_error ids (rank (length ids) mean) with Some id => Ok id | None => Crash end.
Proof.
  intros E. unfold pick. destruct (reject fuel outside mean stddev next i) as [[v j']|] eqn:R; cbn [bind]; [|discriminate]. intros H.
  apply reject_good in R as (_ & _ & ->). fold (rank (length ids) (normal mean stddev (next (j' - 1)%nat))) in H.
  rewrite (rank_eq (length ids) _ mean (normal_const mean stddev _ E)) in H. congruence.
Qed.
Lemma other_const mean stddev next ids first : stddev == 0 -> nth_error ids (rank (length ids) mean) = Some first ->
  forall outer fuel i, other outer fuel ids mean stddev next first i = None.
Proof.
  intros E F. induction outer as [|outer IH]; intros fuel i; cbn [other]; [reflexivity|].
  destruct (pick fuel ids mean stddev next i) as [[o j]|] eqn:P; cbn [bind]; [|reflexivity].
  apply pick_const in P; [|exact E]. rewrite F in P. subst o. rewrite Nat.eqb_refl. apply IH.
Qed.
Lemma parents_const outer fuel ids mean stddev next i : stddev == 0 -> (0 < length ids)%nat -> 0 <= mean -> mean < 1 ->
  parents outer fuel ids mean stddev next i = None.
Proof.
  intros E N A B. unfold parents. destruct (pick fuel ids mean stddev next i) as [[o j]|] eqn:P; cbn [bind]; [|reflexivity].
  apply pick_const in P; [|exact E]. pose proof (rank_lt (length ids) mean N A B) as R. apply nth_error_Some in R.
  destruct (nth_error ids (rank (length ids) mean)) as [first|] eqn:F; [|congruence]. subst o. now rewrite (other_const mean stddev next ids first E F).
Qed.
Lemma parents_one outer fuel ids mean stddev next i : stddev == 0 -> mean == 1 -> (0 < fuel)%nat ->
  parents outer fuel ids mean stddev next i = Some (Crash, S i).
Proof.
  intros E M Hf. unfold parents, pick. destruct fuel as [|fuel]; [lia|]. cbn [reject].
  assert (O : outside (normal mean stddev (next i)) = false). { apply outside_false. rewrite (normal_const mean stddev _ E), M. lra. }
  rewrite O. cbn [bind]. fold (rank (length ids) (normal mean stddev (next i))).
  rewrite (rank_eq _ _ 1), rank_one; [|rewrite (normal_const mean stddev _ E); exact M].
  rewrite (proj2 (nth_error_None ids (length ids)) (le_n _)). reflexivity.
Qed.

(** *** The probabilities of a mutation *)
Lemma mutation_ends vm vs lm ls vnext lnext i j : (0 < vs /\ enters_every_interval vnext \/ vs == 0 /\ 0 < vm /\ vm < 1) ->
  (0 < ls /\ enters_every_interval lnext \/ ls == 0 /\ 0 <= lm /\ lm <= 1) ->
  exists fuel r, mutation_draws fuel vm vs lm ls vnext lnext i j = Some r /\
    match r with None => lm == 0 /\ ls == 0 | Some (v, l) => 0 < v < 1 /\ 0 <= l <= 1 end.
Proof.
  intros V L. unfold mutation_draws. destruct (Qeq_bool lm 0 && Qeq_bool ls 0) eqn:Z.
  { apply andb_prop in Z as [Z1 Z2]. apply Qeq_bool_iff in Z1, Z2. exists 0%nat, None. auto. }
  assert (KV : exists k, (i <= k)%nat /\ not_inside (normal vm vs (vnext k)) = false).
  { destruct V as [[S E]|(S & A & B)].
    - destruct (enters_values vnext vm vs 0 1 i E S) as (k & K & H); [reflexivity|]. exists k. split; [exact K|]. now apply not_inside_false.
    - exists i. split; [lia|]. apply not_inside_false. rewrite (normal_const vm vs _ S). auto. }
  assert (KL : exists k, (j <= k)%nat /\ outside (normal lm ls (lnext k)) = false).
  { destruct L as [[S E]|(S & A & B)].
    - destruct (enters_values lnext lm ls 0 1 j E S) as (k & K & H); [reflexivity|]. exists k. split; [exact K|]. apply outside_false. lra.
    - exists j. split; [lia|]. apply outside_false. rewrite (normal_const lm ls _ S). auto. }
  destruct KV as (k & K & HK), KL as (k' & K' & HK').
  destruct (reject_ends _ _ _ _ _ HK (S (k + k')) i K) as (v & j1 & R & _); [lia|].
  destruct (reject_ends _ _ _ _ _ HK' (S (k + k')) j K') as (l & j2 & R' & _); [lia|].
  exists (S (k + k')), (Some (v, l)). rewrite R. cbn [bind]. rewrite R'. cbn [bind]. split; [reflexivity|].
  apply reject_good in R as (R & _). apply reject_good in R' as (R' & _). apply not_inside_false in R. apply outside_false in R'. auto.
Qed.
Lemma mutation_never fuel vm vs lm ls vnext lnext i j : vs == 0 -> (vm == 0 \/ vm == 1) -> ~ (lm == 0 /\ ls == 0) ->
  mutation_draws fuel vm vs lm ls vnext lnext i j = None.
Proof.
  intros S M N. unfold mutation_draws. destruct (Qeq_bool lm 0 && Qeq_bool ls 0) eqn:Z.
  { apply andb_prop in Z as [Z1 Z2]. apply Qeq_bool_iff in Z1, Z2. tauto. }
  rewrite reject_never; [reflexivity|]. intros z. apply Bool.not_false_iff_true. rewrite not_inside_false, (normal_const vm vs z S).
  intros [A B]. destruct M as [M|M]; rewrite M in *; lra.
Qed.

(** *** The restarts *)
Section Restarts.
Variables (start increase stop kmin kmax : Q).
Hypothesis (S0 : 0 <= start) (S1 : start <= stop) (I0 : 0 <= increase) (K : kmin <= kmax).
Local Notation app := (append_at start increase stop kmin kmax).
Lemma append_next k : app (S k) = if qlt (app k) stop then app k + increase else start.
Proof. cbn [append_at]. unfold restart. now destruct (qlt (app k) stop). Qed.
Lemma restart_at_eq k : restart_at start increase stop kmin kmax k =
  if qlt (app k) stop then (kmin + (kmax - kmin) * app (S k), false) else (kmin, true).
Proof. unfold restart_at. rewrite append_next. unfold restart. now destruct (qlt (app k) stop). Qed.
Lemma append_nonneg k : 0 <= app k.
Proof. induction k as [|k IH]; [cbn; lra|]. rewrite append_next. destruct (qlt (app k) stop); lra. Qed.
Lemma kappa_low k : kmin <= fst (restart_at start increase stop kmin kmax k).
Proof.
  rewrite restart_at_eq. destruct (qlt (app k) stop); cbn [fst]; [|lra].
  pose proof (append_nonneg (S k)) as A. assert (0 <= (kmax - kmin) * app (S k)) by (apply Qmult_le_0_compat; lra). lra.
Qed.
Lemma kappa_high k : stop + increase <= 1 -> fst (restart_at start increase stop kmin kmax k) <= kmax.
Proof.
  intros H. rewrite restart_at_eq. destruct (qlt (app k) stop) eqn:E; cbn [fst]; [|lra]. rewrite append_next, E. apply qlt_spec in E.
  assert ((kmax - kmin) * (app k + increase) <= (kmax - kmin) * 1).
  { rewrite (Qmult_comm (kmax - kmin)), (Qmult_comm (kmax - kmin)). apply Qmult_le_compat_r; lra. } lra.
Qed.
Lemma append_steps k : forall n, (forall j, (j < n)%nat -> app (k + j)%nat < stop) -> app (k + n)%nat == app k + inject_Z (Z.of_nat n) * increase.
Proof.
  induction n as [|n IH]; intros H.
  - rewrite Nat.add_0_r. change (inject_Z (Z.of_nat 0)) with 0. ring.
  - rewrite Nat.add_succ_r, append_next. rewrite (proj2 (qlt_spec _ _)) by (apply H; lia). rewrite IH by (intros j Hj; apply H; lia).
    rewrite Nat2Z.inj_succ. unfold Z.succ. rewrite inject_Z_plus. change (inject_Z 1) with 1. ring.
Qed.
Lemma crosses_within k n : 0 < increase -> stop <= inject_Z (Z.of_nat n) * increase ->
  exists j, (j <= n)%nat /\ restart_at start increase stop kmin kmax (k + j) = (kmin, true).
Proof.
  intros I H.
  assert (C : forall m, (forall j, (j < m)%nat -> app (k + j)%nat < stop) \/ exists j, (j < m)%nat /\ ~ app (k + j)%nat < stop).
  { induction m as [|m [IH|(j & J & H1)]]; [left; intros; lia| |right; exists j; split; [lia|exact H1]].
    destruct (Qlt_le_dec (app (k + m)%nat) stop) as [L|L].
    - left. intros j Hj. destruct (Nat.eq_dec j m) as [->|]; [exact L|apply IH; lia].
    - right. exists m. split; [lia|lra]. }
  destruct (C (S n)) as [A|(j & J & A)].
  - exfalso. pose proof (append_steps k n (fun j Hj => A j (Nat.lt_lt_succ_r _ _ Hj))) as E. specialize (A n (Nat.lt_succ_diag_r n)).
    pose proof (append_nonneg k). lra.
  - exists j. split; [lia|]. rewrite restart_at_eq. destruct (qlt (app (k + j)) stop) eqn:Q; [|reflexivity]. apply qlt_spec in Q. contradiction.
Qed.
Lemma never_crosses k : increase == 0 -> 0 < stop -> app k == 0 /\ snd (restart_at start increase stop kmin kmax k) = false.
Proof.
  intros I H. assert (A : app k == 0).
  { induction k as [|k IH]; [reflexivity|]. rewrite append_next. rewrite (proj2 (qlt_spec _ _)) by lra. lra. }
  split; [exact A|]. rewrite restart_at_eq. now rewrite (proj2 (qlt_spec _ _)) by lra.
Qed.
End Restarts.
