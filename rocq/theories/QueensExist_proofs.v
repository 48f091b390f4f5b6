(** There is a placement of n queens for every n >= 4, and none for n = 3. *)
From Verif Require Import Base Queens_model Queens_spec Queens_proofs.
Open Scope Z_scope.

(** A queen in each row: the column of the queen of row [i] is [f i]. *)
Definition peaceful (n : Z) (f : Z -> Z) : Prop :=
  (forall i, 0 <= i < n -> 0 <= f i < n) /\
  forall i j, 0 <= i < j -> j < n -> f i <> f j /\ f i - i <> f j - j /\ f i + i <> f j + j.
Lemma peaceful_placement n f : 3 <= n -> peaceful n f -> n_queens_placement n (fun i j => f i =? j).
Proof.
  intros Hn [H1 H2]. split.
  - exists (map (fun i => (i, f i)) (range 0 n)). split; [split|].
    + apply FinFun.Injective_map_NoDup; [intros x y H; congruence|apply range_nodup].
    + intros [i j]. cbn [fst snd]. rewrite in_map_iff. unfold on_board. cbn [fst snd]. split.
      * intros (k & E & Hk). apply in_range in Hk. injection E as <- <-. specialize (H1 k Hk). split; [lia|apply Z.eqb_refl].
      * intros [[Hi Hj] E]. apply Z.eqb_eq in E. exists i. split; [congruence|apply in_range; lia].
    + rewrite map_length, range_length. lia.
  - intros [i j] [k l] [A1 A2] [B1 B2] Ea Eb Hne. cbn [fst snd] in *. apply Z.eqb_eq in Ea, Eb. subst j l. unfold attack. cbn [fst snd].
    assert (Hik : i <> k) by congruence. destruct (Z.lt_ge_cases i k) as [H|H].
    + specialize (H2 i k ltac:(lia) ltac:(lia)). lia.
    + specialize (H2 k i ltac:(lia) ltac:(lia)). lia.
Qed.

Definition even1 (m i : Z) : Z := if i <? m then 2 * i + 1 else 2 * (i - m).
Definition even2_low (m i : Z) : Z := if m + 2 * i - 1 <? 2 * m then m + 2 * i - 1 else m + 2 * i - 1 - 2 * m.
Definition even2 (m i : Z) : Z := if i <? m then even2_low m i else 2 * m - 1 - even2_low m (2 * m - 1 - i).
(** No queen on the diagonal from (0, 0). *)
Definition off_diagonal (n : Z) (f : Z -> Z) : Prop := forall i, 0 <= i < n -> f i <> i.
Definition add_corner (n : Z) (f : Z -> Z) (i : Z) : Z := if i =? n then n else f i.

Lemma even1_ok m : 2 <= m -> m mod 3 <> 1 -> peaceful (2 * m) (even1 m) /\ off_diagonal (2 * m) (even1 m).
Proof.
  intros Hm H3. unfold peaceful, off_diagonal, even1. split; [split|].
  - intros i Hi. destruct (Z.ltb_spec i m); lia.
  - intros i j Hi Hj. destruct (Z.ltb_spec i m), (Z.ltb_spec j m); Z.div_mod_to_equations; lia.
  - intros i Hi. destruct (Z.ltb_spec i m); lia.
Qed.
Lemma even2_ok m : 2 <= m -> m mod 3 <> 0 -> peaceful (2 * m) (even2 m) /\ off_diagonal (2 * m) (even2 m).
Proof.
  intros Hm H3. unfold peaceful, off_diagonal, even2, even2_low. split; [split|].
  - intros i Hi. destruct (Z.ltb_spec i m); [destruct (Z.ltb_spec (m + 2 * i - 1) (2 * m)); lia|].
    destruct (Z.ltb_spec (m + 2 * (2 * m - 1 - i) - 1) (2 * m)); lia.
  - intros i j Hi Hj. Z.div_mod_to_equations. destruct (Z.ltb_spec i m), (Z.ltb_spec j m);
      repeat match goal with |- context [if ?a <? ?b then _ else _] => destruct (Z.ltb_spec a b) end; lia.
  - intros i Hi. destruct (Z.ltb_spec i m); [destruct (Z.ltb_spec (m + 2 * i - 1) (2 * m)); lia|].
    destruct (Z.ltb_spec (m + 2 * (2 * m - 1 - i) - 1) (2 * m)); lia.
Qed.
Lemma corner_ok n f : 4 <= n -> peaceful n f -> off_diagonal n f -> peaceful (n + 1) (add_corner n f).
Proof.
  intros Hn [H1 H2] H3. unfold peaceful, add_corner. split.
  - intros i Hi. destruct (Z.eqb_spec i n); [lia|]. specialize (H1 i ltac:(lia)). lia.
  - intros i j Hi Hj. destruct (Z.eqb_spec i n); [lia|]. destruct (Z.eqb_spec j n).
    + specialize (H1 i ltac:(lia)). specialize (H3 i ltac:(lia)). lia.
    + apply H2; lia.
Qed.
Theorem queens_exist n : 4 <= n -> exists q, n_queens_placement n q.
Proof.
  intros Hn. assert (E : forall m, 2 <= m -> exists f, peaceful (2 * m) f /\ off_diagonal (2 * m) f).
  { intros m Hm. destruct (Z.eq_dec (m mod 3) 1) as [E|E]; [exists (even2 m); apply even2_ok; lia|exists (even1 m); apply even1_ok; lia]. }
  destruct (Z.eq_dec (n mod 2) 0) as [H|H].
  - destruct (E (n / 2)) as (f & Hf & _); [Z.div_mod_to_equations; lia|]. exists (fun i j => f i =? j). apply peaceful_placement; [lia|].
    replace (2 * (n / 2)) with n in Hf by (Z.div_mod_to_equations; lia). exact Hf.
  - destruct (E (n / 2)) as (f & Hf & Hd); [Z.div_mod_to_equations; lia|]. set (k := 2 * (n / 2)) in *. assert (Hk : n = k + 1) by (unfold k; Z.div_mod_to_equations; lia).
    exists (fun i j => add_corner k f i =? j). apply peaceful_placement; [lia|]. rewrite Hk. apply corner_ok; [lia|exact Hf|exact Hd].
Qed.
