(** The period of the engine. *)
From Coq Require Import Lia Znumtheory Zpow_facts.
From Verif Require Import Base Seed_model Seed_spec Seed_proofs.
Open Scope Z_scope.

Section Order.
Variables a m N : Z.
Variable qs : list Z.
Hypothesis Hm : 1 < m.
Hypothesis HN : 0 < N.
Hypothesis H1 : a ^ N mod m = 1.
Hypothesis Hq : forall k, 1 < k -> (k | N) -> exists q, In q qs /\ (q | k).
Hypothesis Hqs : forall q, In q qs -> 0 < q /\ a ^ (N / q) mod m <> 1.

Lemma power_mul e k : 0 <= e -> 0 <= k -> a ^ e mod m = 1 -> a ^ (e * k) mod m = 1.
Proof. intros He Hk H. rewrite Z.pow_mul_r by assumption. rewrite Zpower_mod by lia. rewrite H. rewrite Z.pow_1_l by assumption. apply Z.mod_small. lia. Qed.
Lemma power_rem e f : 0 <= e -> 0 < f -> a ^ e mod m = 1 -> a ^ f mod m = 1 -> a ^ (e mod f) mod m = 1.
Proof.
  intros He Hf E1 E2. pose proof (Z.mod_pos_bound e f Hf) as B. pose proof (Z.div_pos e f He Hf) as D.
  rewrite (Z.div_mod e f) in E1 at 1 by lia. rewrite Z.pow_add_r in E1 by nia. rewrite Zmult_mod in E1. rewrite (power_mul f (e / f)) in E1 by lia.
  rewrite Z.mul_1_l, Z.mod_mod in E1 by lia. exact E1.
Qed.
Lemma power_gcd : forall f, 0 <= f -> forall e, 0 <= e -> a ^ e mod m = 1 -> a ^ f mod m = 1 -> a ^ (Z.gcd e f) mod m = 1.
Proof.
  intros f Hf. pattern f. apply Zlt_0_ind; [|exact Hf]. clear f Hf. intros f IH Hf e He E1 E2.
  destruct (Z.eq_dec f 0) as [->|N0].
  - rewrite Z.gcd_0_r, Z.abs_eq by assumption. exact E1.
  - assert (P : 0 < f) by lia. pose proof (Z.mod_pos_bound e f P) as B.
    rewrite Z.gcd_comm. rewrite <- (Z.gcd_mod e f) by assumption. rewrite Z.gcd_comm. apply IH; first [lia|exact E2|apply power_rem; assumption].
Qed.
Lemma order e : 0 <= e -> (a ^ e mod m = 1 <-> (N | e)).
Proof.
  intros He. split.
  - intros E. pose proof (power_gcd N (Z.lt_le_incl _ _ HN) e He E H1) as G. set (g := Z.gcd e N) in *.
    assert (Gd : (g | N)) by apply Z.gcd_divide_r. assert (Ge : (g | e)) by apply Z.gcd_divide_l.
    assert (Gp : 0 < g). { pose proof (Z.gcd_nonneg e N) as P. fold g in P. destruct (Z.eq_dec g 0) as [E0|]; [|lia]. rewrite E0 in Gd. apply Z.divide_0_l in Gd. lia. }
    destruct Gd as [k Hk]. assert (Kp : 0 < k) by nia.
    destruct (Z.eq_dec k 1) as [->|K1]; [rewrite Hk, Z.mul_1_l; exact Ge|]. exfalso.
    destruct (Hq k) as (q & Iq & [c Hc]); [lia|exists g; lia|]. destruct (Hqs q Iq) as [Qp Qn]. apply Qn.
    replace (N / q) with (g * c) by (apply Z.div_unique_exact; [lia|rewrite Hk, Hc; ring]). apply power_mul; [lia|nia|exact G].
  - intros [k ->]. rewrite Z.mul_comm. apply power_mul; [lia|nia|exact H1].
Qed.
End Order.

(** [p] has no divisor in a range of 2^n numbers. *)
Fixpoint no_divisor (p : Z) (n : nat) (lo : Z) : bool :=
  match n with O => negb (p mod lo =? 0) | S n' => no_divisor p n' lo && no_divisor p n' (lo + 2 ^ Z.of_nat n') end.
Lemma no_divisor_ok p n : forall lo d, no_divisor p n lo = true -> lo <= d < lo + 2 ^ Z.of_nat n -> p mod d <> 0.
Proof.
  induction n as [|n IH]; intros lo d H Hd; cbn [no_divisor] in H.
  - cbn in Hd. assert (d = lo) by lia. subst d. apply Bool.negb_true_iff, Z.eqb_neq in H. exact H.
  - apply Bool.andb_true_iff in H. destruct H as [A B]. rewrite Nat2Z.inj_succ, Z.pow_succ_r in Hd by lia.
    destruct (Z_lt_le_dec d (lo + 2 ^ Z.of_nat n)); [apply (IH lo); [assumption|lia]|apply (IH (lo + 2 ^ Z.of_nat n)); [assumption|lia]].
Qed.
Lemma coprime_below p n s : no_divisor p n 2 = true -> p < 2 ^ Z.of_nat n * 2 ^ Z.of_nat n -> 0 < s < p -> Z.gcd s p = 1.
Proof.
  intros H Hp Hs. set (g := Z.gcd s p). assert (Gp : (g | p)) by apply Z.gcd_divide_r. assert (Gs : (g | s)) by apply Z.gcd_divide_l.
  pose proof (Z.gcd_nonneg s p) as P. fold g in P. destruct (Z.eq_dec g 0) as [E0|N0]; [rewrite E0 in Gs; apply Z.divide_0_l in Gs; lia|].
  assert (Gl : g <= s) by (apply Z.divide_pos_le; [lia|exact Gs]). destruct (Z.eq_dec g 1) as [|N1]; [assumption|]. exfalso.
  destruct Gp as [k Hk]. assert (T : 0 < 2 ^ Z.of_nat n) by (apply Z.pow_pos_nonneg; lia).
  set (t := 2 ^ Z.of_nat n) in *. assert (K : 1 < k) by nia.
  destruct (Z_lt_le_dec g t) as [L|L].
  - apply (no_divisor_ok p n 2 g H); [fold t; lia|]. apply Z.mod_divide; [lia|]. exists k. exact Hk.
  - apply (no_divisor_ok p n 2 k H); [fold t; nia|]. apply Z.mod_divide; [lia|]. exists g. lia.
Qed.
Lemma prime_small q n : no_divisor q n 2 = true -> q < 2 ^ Z.of_nat n * 2 ^ Z.of_nat n -> 1 < q -> prime q.
Proof. intros H Hq H1. apply prime_intro; [exact H1|]. intros s Hs. apply Zgcd_1_rel_prime. apply (coprime_below q n); [assumption|assumption|lia]. Qed.

Definition order_primes : list Z := [2; 3; 7; 11; 31; 151; 331].
Lemma order_primes_prime q : In q order_primes -> prime q.
Proof.
  intros H. unfold order_primes in H. cbn [In] in H.
  destruct H as [<-|H]; [exact prime_2|]. destruct H as [<-|H]; [exact prime_3|].
  destruct H as [<-|H]; [apply (prime_small 7 2); vm_compute; reflexivity|]. destruct H as [<-|H]; [apply (prime_small 11 3); vm_compute; reflexivity|].
  destruct H as [<-|H]; [apply (prime_small 31 4); vm_compute; reflexivity|]. destruct H as [<-|H]; [apply (prime_small 151 5); vm_compute; reflexivity|].
  destruct H as [<-|H]; [apply (prime_small 331 6); vm_compute; reflexivity|]. destruct H.
Qed.
Lemma order_factor k : 1 < k -> (k | 2147483646) -> exists q, In q order_primes /\ (q | k).
Proof.
  intros Hk Hd. destruct (Exists_dec (fun q => (q | k)) order_primes (fun q => Zdivide_dec q k)) as [E|E].
  - apply Exists_exists in E. exact E.
  - exfalso. assert (R : forall q, In q order_primes -> rel_prime k q).
    { intros q Hq. apply rel_prime_sym, prime_rel_prime; [apply order_primes_prime; exact Hq|]. intros D. apply E, Exists_exists. eauto. }
    assert (T : rel_prime k 2147483646).
    { change 2147483646 with (2 * (3 * (3 * (7 * (11 * (31 * (151 * 331))))))).
      repeat (apply rel_prime_mult; [apply R; cbn; tauto|]). apply R. cbn. tauto. }
    apply Zgcd_1_rel_prime in T. apply Z.divide_gcd_iff in Hd; [|lia]. lia.
Qed.

(** The multipliers of minstd_rand0 and minstd_rand. *)
Definition order_check (a : Z) : bool :=
  (Z.gcd a modulus =? 1) && (Zpow_mod a 2147483646 modulus =? 1) && forallb (fun q => negb (Zpow_mod a (2147483646 / q) modulus =? 1)) order_primes.
Lemma order_of a e : order_check a = true -> 0 <= e -> (a ^ e mod modulus = 1 <-> (2147483646 | e)).
Proof.
  intros H He. unfold order_check in H. apply Bool.andb_true_iff in H. destruct H as [H H3]. apply Bool.andb_true_iff in H. destruct H as [_ H2].
  apply Z.eqb_eq in H2. rewrite Zpow_mod_correct in H2 by discriminate. rewrite forallb_forall in H3.
  apply (order a modulus 2147483646 order_primes); [reflexivity|reflexivity|exact H2|exact order_factor| |exact He].
  intros q Hq. split; [destruct (order_primes_prime q Hq) as [P _]; clear - P; lia|].
  specialize (H3 q Hq). apply Bool.negb_true_iff, Z.eqb_neq in H3. rewrite Zpow_mod_correct in H3 by discriminate. exact H3.
Qed.
Lemma modulus_coprime s : 0 < s < modulus -> Z.gcd s modulus = 1.
Proof. intros H. apply (coprime_below modulus 16); [vm_compute; reflexivity|vm_compute; reflexivity|exact H]. Qed.
Lemma divides_mod x y : (x mod modulus = y mod modulus <-> (modulus | x - y)).
Proof.
  split; intros H.
  - apply Z.mod_divide; [discriminate|]. rewrite Zminus_mod, H, Z.sub_diag. reflexivity.
  - destruct H as [k Hk]. replace x with (y + k * modulus) by lia. apply Z_mod_plus_full.
Qed.
Lemma period a s i d : order_check a = true -> 0 < s < modulus -> 0 <= i -> 0 <= d ->
  ((a ^ i * s) mod modulus = (a ^ (i + d) * s) mod modulus <-> (2147483646 | d)).
Proof.
  intros Hc Hs Hi Hd. rewrite <- (order_of a d Hc Hd).
  assert (Ga : Z.gcd a modulus = 1).
  { unfold order_check in Hc. apply Bool.andb_true_iff in Hc. destruct Hc as [Hc _]. apply Bool.andb_true_iff in Hc. destruct Hc as [Hc _]. apply Z.eqb_eq, Hc. }
  assert (Gi : rel_prime (a ^ i) modulus) by (apply rel_prime_sym, rel_prime_Zpower_r; [exact Hi|apply rel_prime_sym, Zgcd_1_rel_prime; exact Ga]).
  assert (Gs : rel_prime s modulus) by (apply Zgcd_1_rel_prime, modulus_coprime; exact Hs).
  replace (a ^ d mod modulus = 1) with (a ^ d mod modulus = 1 mod modulus) by reflexivity. rewrite !divides_mod. rewrite Z.pow_add_r by assumption.
  generalize dependent (a ^ i). generalize (a ^ d). intros D A GA. split; intros H.
  - assert (K : (modulus | (A * s) * (D - 1))) by (destruct H as [k Hk]; exists (- k); nia).
    apply (Gauss modulus (A * s)); [exact K|]. apply rel_prime_mult; apply rel_prime_sym; assumption.
  - destruct H as [k Hk]. exists (- (A * s * k)). replace D with (k * modulus + 1) by lia. ring.
Qed.
Lemma minstd : order_check 16807 = true /\ order_check 48271 = true.
Proof. split; vm_compute; reflexivity. Qed.
Lemma draws_period a s n i j : order_check a = true -> 0 < s < modulus -> (i <= j < n)%nat ->
  (nth_error (draws a s n) i = nth_error (draws a s n) j <-> (2147483646 | Z.of_nat j - Z.of_nat i)).
Proof.
  intros Hc Hs Hij. rewrite !draws_power by lia.
  rewrite <- (period a s (Z.of_nat i + 1) (Z.of_nat j - Z.of_nat i) Hc Hs) by lia.
  replace (Z.of_nat i + 1 + (Z.of_nat j - Z.of_nat i)) with (Z.of_nat j + 1) by lia.
  split; [intros H; injection H as H; exact H|intros H; rewrite H; reflexivity].
Qed.
Lemma draws_nodup a s n : order_check a = true -> 0 < s < modulus -> Z.of_nat n <= 2147483646 -> NoDup (draws a s n).
Proof.
  intros Hc Hs Hn. apply NoDup_nth_error. intros i j Hi E. rewrite draws_length in Hi.
  assert (Hj : (j < n)%nat). { rewrite <- (draws_length a n s). apply nth_error_Some. rewrite <- E. apply nth_error_Some. rewrite draws_length. exact Hi. }
  assert (K : forall i j, (i <= j < n)%nat -> nth_error (draws a s n) i = nth_error (draws a s n) j -> i = j).
  { intros u v Huv H. apply (draws_period a s n u v Hc Hs Huv) in H. destruct H as [k Hk]. nia. }
  destruct (Nat.le_ge_cases i j); [apply K; [lia|exact E]|symmetry; apply K; [lia|symmetry; exact E]].
Qed.
