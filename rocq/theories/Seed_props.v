(** C166: the seed and the random numbers of a run. *)
From Coq Require Import Lia.
From Verif Require Import Base Problem_model Preprocess_model Params_model Merged_model Solver_model EndToEnd_model Rows_model Pool_model Pool_proofs Pool_proofs2 Pool_proofs3 Pool_props RInterface_model Seed_model Seed_spec Seed_proofs Seed_proofs2.
Open Scope Z_scope.

(** C166. The parameter seed, when it is not 0, decides the random numbers: the clock does not count. Two seeds give the same numbers when they are in
    the same class, and otherwise the two runs never draw the same number at the same place. The multiplier is any that is prime to the modulus. *)
Theorem C166_seeds :
  forall a w now now' s s' n, Z.gcd a 2147483647 = 1 -> 32 <= w -> 0 < s < 2 ^ 32 -> 0 < s' < 2 ^ 32 -> (0 < n)%nat ->
  (same_class s s' <-> numbers a w now s n = numbers a w now' s' n) /\
  (~ same_class s s' -> never_meet (numbers a w now s n) (numbers a w now' s' n)).
Proof. intros. apply numbers_class; assumption. Qed.
Print Assumptions C166_seeds.

(** So solve() with two seeds of the same class, at any two times, gives the same result. The random engine is the first part of the state, the rest
    (the clock of the time limit) is the second. *)
Theorem C166_same_run :
  forall (F W : Type) (fo : fops F) (ro : rops (Z * W)) std_sort ddiv random_optimizer raw_costs norm_costs pfuel fuel pp random buffered po pa after pb w now now' s s' world,
  32 <= w -> 0 < s < 2 ^ 32 -> 0 < s' < 2 ^ 32 -> same_class s s' ->
  user_solve fo ro std_sort ddiv random_optimizer raw_costs norm_costs pfuel fuel pp random buffered po pa after (start_engine (seed_of w now s), world) pb =
  user_solve fo ro std_sort ddiv random_optimizer raw_costs norm_costs pfuel fuel pp random buffered po pa after (start_engine (seed_of w now' s'), world) pb.
Proof. intros. rewrite !seed_param by assumption. replace (start_engine s') with (start_engine s); [reflexivity|]. apply start_same. assumption. Qed.
Print Assumptions C166_same_run.

(** The seeds that the command line accepts, 1 to 2147483647: all of them give different numbers, but the last one is the first one again. *)
Theorem C166_command_line :
  forall a w now now' s s' n, Z.gcd a 2147483647 = 1 -> 32 <= w -> 0 < s -> s < s' -> s' <= 2147483647 -> (0 < n)%nat ->
  (numbers a w now s n = numbers a w now' s' n <-> s = 1 /\ s' = 2147483647).
Proof.
  intros a w now now' s s' n Ha Hw H1 H2 H3 Hn. destruct (numbers_class a Ha w now now' s s' n) as [E _]; [lia|lia|lia|lia|]. rewrite <- E. unfold same_class.
  rewrite (Z.mod_small s) by lia. destruct (Z.eq_dec s' 2147483647) as [->|N]; [rewrite Z_mod_same_full; lia|]. rewrite (Z.mod_small s') by lia. lia.
Qed.
Print Assumptions C166_command_line.

(** The engine is never stuck at 0: every number drawn is between 1 and 2147483646, whatever the seed and the clock. *)
Theorem C166_range :
  forall a w now s n, Z.gcd a 2147483647 = 1 -> List.length (numbers a w now s n) = n /\ forall x, In x (numbers a w now s n) -> 1 <= x <= 2147483646.
Proof.
  intros a w now s n Ha. split; [apply draws_length|]. intros x Hx. pose proof (draws_range a Ha n _ (start_range _) x Hx) as R. unfold modulus in R. lia.
Qed.
Print Assumptions C166_range.

(** The numbers: the one at place k (from 0) is a^(k+1) times the seed modulo 2^31 - 1, with 1 for a seed that is a multiple of it. *)
Theorem C166_numbers :
  forall a w now s n k, 32 <= w -> 0 < s < 2 ^ 32 -> (k < n)%nat ->
  nth_error (numbers a w now s n) k = Some ((a ^ (Z.of_nat k + 1) * (if s mod 2147483647 =? 0 then 1 else s)) mod 2147483647).
Proof.
  intros a w now s n k Hw H Hk. unfold numbers. rewrite seed_param by assumption. rewrite draws_power by assumption. unfold start_engine. f_equal.
  change 2147483647 with modulus. destruct (s mod modulus =? 0); [reflexivity|]. apply Zmult_mod_idemp_r.
Qed.
Print Assumptions C166_numbers.

(** The period. With the multipliers of libstdc++ (16807) and libc++ (48271), whatever the seed and the clock, the numbers at two places are equal
    exactly when the distance of the places is a multiple of 2147483646; so that many numbers are drawn before one comes again. *)
Theorem C166_period :
  forall a w now s n i j, a = 16807 \/ a = 48271 -> (i <= j < n)%nat ->
  (nth_error (numbers a w now s n) i = nth_error (numbers a w now s n) j <-> (2147483646 | Z.of_nat j - Z.of_nat i)).
Proof. intros a w now s n i j Ha. apply draws_period; [destruct Ha as [-> | ->]; apply minstd|apply start_range]. Qed.
Print Assumptions C166_period.
Theorem C166_no_repeat :
  forall a w now s n, a = 16807 \/ a = 48271 -> Z.of_nat n <= 2147483646 -> NoDup (numbers a w now s n).
Proof. intros a w now s n Ha. apply draws_nodup; [destruct Ha as [-> | ->]; apply minstd|apply start_range]. Qed.
Print Assumptions C166_no_repeat.

(** The seeds of the threads of optimize() (C40) have 64 bits with libstdc++: different seeds may start the same engine, so that comparing the
    seeds does not make the threads different. *)
Theorem C166_threads :
  forall s, exists s', s' <> s /\ (0 <= s < 2 ^ 63 -> 0 <= s' < 2 ^ 64) /\ forall a n, draws a (start_engine s') n = draws a (start_engine s) n.
Proof.
  intros s. exists (s + 2147483647). split; [lia|]. split; [intros; lia|]. intros a n. replace (start_engine (s + 2147483647)) with (start_engine s); [reflexivity|].
  apply start_same. left. rewrite <- (Z.mul_1_l 2147483647) at 2. rewrite Z_mod_plus_full. reflexivity.
Qed.
Print Assumptions C166_threads.

(** Whatever the number of threads, values can be drawn for which generate_seed returns different seeds of 64 bits, and all the threads draw the same
    numbers. *)
Theorem C166_threads_same_numbers :
  forall threads, (1 < threads)%nat -> Z.of_nat threads <= 2 ^ 32 ->
  exists draw l, (forall k, (k < threads)%nat -> 0 <= draw k < 2 ^ 64) /\ generate_seed draw threads threads = Finished l /\ List.length l = threads /\ NoDup l /\
    forall s s' a n, In s l -> In s' l -> draws a (start_engine s) n = draws a (start_engine s') n.
Proof.
  intros threads Ht Hm. set (d := fun k => 5 + Z.of_nat k * 2147483647).
  assert (I : forall x y, (x < threads)%nat -> (y < threads)%nat -> d x = d y -> x = y) by (unfold d; lia).
  exists d, (map d (seq 0 threads)). split; [unfold d; lia|]. split; [apply generate_seed_distinct; [lia|lia|exact I]|].
  split; [rewrite map_length, seq_length; reflexivity|]. split; [apply map_draw_nodup; exact I|].
  assert (C : forall s, In s (map d (seq 0 threads)) -> start_engine s = 5).
  { intros s Hs. apply in_map_iff in Hs. destruct Hs as (k & <- & _). unfold start_engine, d. change 2147483647 with modulus. rewrite Z_mod_plus_full. reflexivity. }
  intros s s' a n Hs Hs'. rewrite (C s Hs), (C s' Hs'). reflexivity.
Qed.
Print Assumptions C166_threads_same_numbers.
(** When the first values drawn are of different classes, no two threads ever draw the same number at the same place. *)
Theorem C166_threads_apart :
  forall a draw fuel threads, Z.gcd a 2147483647 = 1 -> (1 < threads)%nat -> (threads <= fuel)%nat ->
  (forall k k', (k < threads)%nat -> (k' < threads)%nat -> same_class (draw k) (draw k') -> k = k') ->
  exists l, generate_seed draw fuel threads = Finished l /\ List.length l = threads /\
    forall i j s s' n, i <> j -> nth_error l i = Some s -> nth_error l j = Some s' -> never_meet (draws a (start_engine s) n) (draws a (start_engine s') n).
Proof.
  intros a d fuel threads Ha Ht Hf Hd.
  assert (I : forall x y, (x < threads)%nat -> (y < threads)%nat -> d x = d y -> x = y) by (intros x y Hx Hy E; apply Hd; try assumption; left; rewrite E; reflexivity).
  exists (map d (seq 0 threads)). split; [apply generate_seed_distinct; [lia|lia|exact I]|].
  split; [rewrite map_length, seq_length; reflexivity|]. intros i j s s' n Hij Hi Hj.
  apply draws_apart; try apply start_range; [exact Ha|]. intros E. apply start_same in E. apply Hij.
  assert (K : forall k s, nth_error (map d (seq 0 threads)) k = Some s -> (k < threads)%nat /\ s = d k).
  { intros k t Hk. assert (L : (k < threads)%nat) by (rewrite <- (seq_length threads 0), <- (map_length d); apply nth_error_Some; congruence). split; [exact L|].
    rewrite (map_nth_error d k (seq 0 threads) (d := k)) in Hk; [congruence|]. rewrite (nth_error_nth' _ 0%nat) by (rewrite seq_length; exact L). rewrite seq_nth by exact L. reflexivity. }
  destruct (K i s Hi) as [Li ->]. destruct (K j s' Hj) as [Lj ->]. apply Hd; assumption.
Qed.
Print Assumptions C166_threads_apart.
Example C166_threads_case : forall k k', (k < 4)%nat -> (k' < 4)%nat -> same_class (nth k [3000000000; 7; 12345678901234; 5] 0) (nth k' [3000000000; 7; 12345678901234; 5] 0) -> k = k'.
Proof.
  intros k k' H H' [E|[E E']]; do 4 (destruct k as [|k]; [do 4 (destruct k' as [|k']; [first [reflexivity|vm_compute in E; discriminate]|]); lia|]); lia.
Qed.

(** With the seed 0 the clock decides. *)
Theorem C166_seed_0 :
  forall a w now now' n, Z.gcd a 2147483647 = 1 -> 32 <= w -> 0 <= now < 2 ^ w -> 0 <= now' < 2 ^ w -> (0 < n)%nat ->
  (numbers a w now 0 n = numbers a w now' 0 n <-> same_class now now').
Proof.
  intros a w now now' n Ha Hw H H' Hn. unfold numbers, seed_of, to_result_type. cbn [Z.leb Z.compare]. rewrite !Z.mod_small by lia. rewrite <- start_same.
  split; [|intros ->; reflexivity]. intros E. destruct n as [|n]; [lia|]. cbn [draws] in E. injection E as E _.
  apply (draw_inj a Ha); auto using start_range.
Qed.
Print Assumptions C166_seed_0.

(** From R, the seed -1, which is the default of solve_01lp_problem and optimize_01lp_problem, is not an automatic seed: the parameter in force is
    2^32 - 1, and every run draws the numbers of the seed 1, at any time. The clock counts for the seed 0 only. *)
Theorem C166_from_R :
  forall a w now now' n args o, Z.gcd a 2147483647 = 1 -> 32 <= w -> - 2 ^ 31 <= ra_seed args < 2 ^ 31 ->
  pm_seed (in_force (optimize_params args o)) = pm_seed (in_force (solve_params args)) /\
  (ra_seed args <> 0 -> numbers a w now (pm_seed (in_force (solve_params args))) n = numbers a w now' (pm_seed (in_force (solve_params args))) n) /\
  (ra_seed args = -1 -> numbers a w now (pm_seed (in_force (solve_params args))) n = numbers a w now' 1 n).
Proof.
  intros a w now now' n args o Ha Hw Hs.
  assert (E : pm_seed (in_force (solve_params args)) = to_unsigned (ra_seed args)) by reflexivity.
  assert (E' : pm_seed (in_force (optimize_params args o)) = to_unsigned (ra_seed args)) by reflexivity.
  rewrite E, E'. split; [reflexivity|]. unfold to_unsigned. split.
  - intros N. assert (B : 0 < ra_seed args mod 2 ^ 32 < 2 ^ 32).
    { pose proof (Z.mod_pos_bound (ra_seed args) (2 ^ 32) ltac:(lia)) as B. destruct (Z_lt_le_dec (ra_seed args) 0).
      - rewrite <- (Z_mod_plus_full (ra_seed args) 1 (2 ^ 32)) in *. rewrite Z.mod_small in * by lia. lia.
      - rewrite Z.mod_small in * by lia. lia. }
    unfold numbers. rewrite !seed_param by assumption. reflexivity.
  - intros ->. unfold numbers. change ((-1) mod 2 ^ 32) with 4294967295. rewrite !seed_param by lia. reflexivity.
Qed.
Print Assumptions C166_from_R.
Example C166_from_R_case : ra_seed default_args = -1 /\ numbers 16807 64 123456789 (pm_seed (in_force (solve_params default_args))) 2 = [16807; 282475249].
Proof. split; [reflexivity|vm_compute; reflexivity]. Qed.

(** The multipliers of libstdc++ and libc++ are prime to the modulus; the first numbers of minstd_rand0. *)
Example C166_multipliers : Z.gcd 16807 2147483647 = 1 /\ Z.gcd 48271 2147483647 = 1.
Proof. split; reflexivity. Qed.
Example C166_ex :
  numbers 16807 64 0 1 3 = [16807; 282475249; 1622650073] /\ numbers 16807 64 5 2147483647 3 = [16807; 282475249; 1622650073] /\
  numbers 16807 64 5 2147483648 3 = [16807; 282475249; 1622650073] /\ numbers 16807 64 0 2 3 = [33614; 564950498; 1097816499] /\
  same_class 1 2147483647 /\ ~ same_class 1 2.
Proof. repeat split; try reflexivity; [right; vm_compute; split; reflexivity|]. intros [H|[_ H]]; vm_compute in H; discriminate. Qed.
