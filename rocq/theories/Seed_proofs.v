(** The numbers of the engine. *)
From Coq Require Import Lia Znumtheory.
From Verif Require Import Base Seed_model Seed_spec.
Open Scope Z_scope.

Lemma modulus_pos : 0 < modulus. Proof. reflexivity. Qed.
Lemma start_range s : 0 < start_engine s < modulus.
Proof.
  unfold start_engine. pose proof (Z.mod_pos_bound s modulus modulus_pos).
  destruct (s mod modulus =? 0) eqn:E; [unfold modulus; lia|]. apply Z.eqb_neq in E. lia.
Qed.
Lemma start_same s s' : start_engine s = start_engine s' <-> same_class s s'.
Proof.
  unfold start_engine, same_class. change 2147483647 with modulus.
  pose proof (Z.mod_pos_bound s modulus modulus_pos) as A. pose proof (Z.mod_pos_bound s' modulus modulus_pos) as B.
  generalize dependent (s mod modulus). generalize dependent (s' mod modulus). intros r' B r A.
  destruct (Z.eqb_spec r 0) as [E|E]; destruct (Z.eqb_spec r' 0) as [E'|E']; lia.
Qed.

Section Engine.
Variable a : Z.
Hypothesis Ha : Z.gcd a modulus = 1.

Lemma divides s : (modulus | a * s) -> (modulus | s).
Proof. intros H. apply (Z.gauss modulus a s H). rewrite Z.gcd_comm. exact Ha. Qed.
Lemma draw_range s : 0 < s < modulus -> 0 < draw a s < modulus.
Proof.
  intros H. unfold draw. pose proof (Z.mod_pos_bound (a * s) modulus modulus_pos).
  assert (N : (a * s) mod modulus <> 0).
  { intros E. apply Z.mod_divide in E; [|unfold modulus; lia]. apply divides in E. apply Z.divide_pos_le in E; lia. }
  lia.
Qed.
Lemma draw_inj s s' : 0 < s < modulus -> 0 < s' < modulus -> draw a s = draw a s' -> s = s'.
Proof.
  unfold draw. intros H H' E.
  assert (D : (modulus | a * (s - s'))).
  { apply Z.mod_divide; [unfold modulus; lia|]. rewrite Z.mul_sub_distr_l, Zminus_mod, E, Z.sub_diag. reflexivity. }
  apply divides in D. destruct D as [k Hk].
  assert (k = 0) by (unfold modulus in *; lia). subst k. lia.
Qed.
Lemma draws_range n : forall s, 0 < s < modulus -> forall x, In x (draws a s n) -> 0 < x < modulus.
Proof.
  induction n as [|n IH]; intros s H x Hx; [destruct Hx|]. cbn [draws] in Hx. pose proof (draw_range s H).
  destruct Hx as [<-|Hx]; [assumption|]. eapply IH; eassumption.
Qed.
Lemma draws_length n : forall s, length (draws a s n) = n.
Proof. induction n; intros s; cbn [draws length]; congruence. Qed.
Lemma draws_apart n : forall s s', 0 < s < modulus -> 0 < s' < modulus -> s <> s' -> never_meet (draws a s n) (draws a s' n).
Proof.
  induction n as [|n IH]; intros s s' H H' Hn k x y Hx Hy; [destruct k; discriminate|]. cbn [draws] in Hx, Hy.
  assert (D : draw a s <> draw a s') by (intros E; apply Hn, draw_inj; assumption).
  destruct k as [|k]; cbn [nth_error] in Hx, Hy; [congruence|].
  eapply (IH (draw a s) (draw a s')); eauto using draw_range.
Qed.
Lemma seed_param w now s : 32 <= w -> 0 < s < 2 ^ 32 -> seed_of w now s = s.
Proof.
  intros Hw H. unfold seed_of, to_result_type. destruct (s <=? 0) eqn:E; [apply Z.leb_le in E; lia|].
  apply Z.mod_small. assert (2 ^ 32 <= 2 ^ w) by (apply Z.pow_le_mono_r; lia). lia.
Qed.
Lemma numbers_class w now now' s s' n : 32 <= w -> 0 < s < 2 ^ 32 -> 0 < s' < 2 ^ 32 -> (0 < n)%nat ->
  (same_class s s' <-> numbers a w now s n = numbers a w now' s' n) /\
  (~ same_class s s' -> never_meet (numbers a w now s n) (numbers a w now' s' n)).
Proof.
  intros Hw H H' Hn. unfold numbers. rewrite !seed_param by assumption. rewrite <- start_same.
  assert (Ap : start_engine s <> start_engine s' -> never_meet (draws a (start_engine s) n) (draws a (start_engine s') n))
    by (intros; apply draws_apart; auto using start_range).
  split; [|exact Ap]. split; [intros E; rewrite E; reflexivity|].
  intros E. destruct (Z.eq_dec (start_engine s) (start_engine s')) as [|D]; [assumption|]. specialize (Ap D). rewrite <- E in Ap.
  destruct n as [|n]; [lia|]. exfalso. eapply (Ap 0%nat); reflexivity.
Qed.
End Engine.

Lemma draws_power a n : forall s k, (k < n)%nat -> nth_error (draws a s n) k = Some ((a ^ (Z.of_nat k + 1) * s) mod modulus).
Proof.
  induction n as [|n IH]; intros s k Hk; [lia|]. cbn [draws]. destruct k as [|k]; cbn [nth_error].
  - rewrite Z.pow_1_r. reflexivity.
  - rewrite IH by lia. f_equal. unfold draw. rewrite Zmult_mod_idemp_r. f_equal.
    replace (Z.of_nat (S k) + 1) with (Z.succ (Z.of_nat k + 1)) by lia. rewrite Z.pow_succ_r by lia. ring.
Qed.
