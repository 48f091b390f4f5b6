(** Lemmas on the course of the parameters. *)
From Coq Require Import Lia Arith.
From Verif Require Import Base Problem_model Preprocess_model Tuning_model.
Open Scope nat_scope.

(** *** The odometer *)
Fixpoint digits (len k n : nat) : list nat :=
  match k with O => [] | S k' => (n mod len) :: digits len k' (n / len) end.
Lemma digits_length len k : forall n, length (digits len k n) = k.
Proof. induction k as [ |k IH ]; intros n; cbn; [ reflexivity | rewrite IH; reflexivity ]. Qed.
Lemma digits_small len k : (0 < len)%nat -> forall n d, In d (digits len k n) -> (d < len)%nat.
Proof.
  intros Hl. induction k as [ |k IH ]; intros n d; cbn; [ intros [] | ].
  intros [ <- | H ]; [ apply Nat.mod_upper_bound; lia | apply (IH _ _ H) ].
Qed.
Lemma digits_zero len k : (0 < len)%nat -> digits len k 0 = repeat 0%nat k.
Proof.
  intros Hl. induction k as [ |k IH ]; cbn [digits repeat]; [ reflexivity | ].
  rewrite Nat.mod_0_l, Nat.div_0_l, IH by lia. reflexivity.
Qed.
Lemma next_digits len k : (0 < len)%nat -> forall n, (n < len ^ k)%nat ->
  next_rev len (digits len k n) =
  if (S n <? len ^ k)%nat then (true, digits len k (S n)) else (false, repeat 0%nat k).
Proof.
  intros Hl. induction k as [ |k IH ]; intros n Hn.
  - cbn in *. assert (n = 0)%nat by lia. subst n. reflexivity.
  - cbn [digits next_rev]. rewrite Nat.pow_succ_r' in *.
    pose proof (Nat.div_mod n len ltac:(lia)) as E. pose proof (Nat.mod_upper_bound n len ltac:(lia)) as B.
    set (q := (n / len)%nat) in *. set (r := (n mod len)%nat) in *.
    assert (Hq : (q < len ^ k)%nat) by (apply Nat.div_lt_upper_bound; lia).
    destruct (Nat.leb_spec len (r + 1)) as [ C | C ].
    + rewrite (IH q Hq). assert (Er : S n = (len * (S q))%nat) by nia.
      assert (Em : (S n mod len)%nat = 0%nat) by (rewrite Er, Nat.mul_comm; apply Nat.mod_mul; lia).
      assert (Ed : (S n / len)%nat = S q) by (rewrite Er, Nat.mul_comm; apply Nat.div_mul; lia).
      destruct (Nat.ltb_spec (S q) (len ^ k)), (Nat.ltb_spec (S n) (len * len ^ k)); try nia.
      * rewrite Em, Ed. reflexivity.
      * reflexivity.
    + assert (Em : (S n mod len)%nat = S r).
      { symmetry. apply (Nat.mod_unique _ _ q); lia. }
      assert (Ed : (S n / len)%nat = q). { symmetry. apply (Nat.div_unique _ _ q (S r)); lia. }
      destruct (Nat.ltb_spec (S n) (len * len ^ k)) as [ L | L ]; [ rewrite Em, Ed; reflexivity | ].
      exfalso. assert (len * S q <= len * len ^ k)%nat by (apply Nat.mul_le_mono_l; lia). nia.
Qed.
Lemma digits_inj len k : (0 < len)%nat -> forall n m, (n < len ^ k)%nat -> (m < len ^ k)%nat -> digits len k n = digits len k m -> n = m.
Proof.
  intros Hl. induction k as [ |k IH ]; intros n m Hn Hm E.
  - cbn in *. lia.
  - cbn [digits] in E. injection E as E1 E2. rewrite Nat.pow_succ_r' in *.
    apply IH in E2; [ | apply Nat.div_lt_upper_bound; lia | apply Nat.div_lt_upper_bound; lia ].
    rewrite (Nat.div_mod n len), (Nat.div_mod m len) by lia. congruence.
Qed.
Lemma digits_onto len k : (0 < len)%nat -> forall l, length l = k -> (forall d, In d l -> (d < len)%nat) ->
  exists n, (n < len ^ k)%nat /\ digits len k n = l.
Proof.
  intros Hl. induction k as [ |k IH ]; intros [ |d l ] Hk Hd; cbn in Hk; try discriminate.
  - exists 0%nat. cbn. split; [ lia | reflexivity ].
  - destruct (IH l) as (n & Hn & E); [ congruence | intros x Hx; apply Hd; cbn; auto | ].
    assert (D : (d < len)%nat) by (apply Hd; cbn; auto).
    exists (len * n + d)%nat. rewrite Nat.pow_succ_r'. split; [ nia | ].
    cbn [digits]. f_equal.
    + symmetry. apply (Nat.mod_unique _ _ n); lia.
    + rewrite <- E. f_equal. symmetry. apply (Nat.div_unique _ _ n d); lia.
Qed.
(** The [n]th value of the iterators. *)
Definition its (len n : nat) : list nat := rev (digits len len n).
Lemma next_its len n : (0 < len)%nat -> (n < len ^ len)%nat ->
  next len (its len n) = if (S n <? len ^ len)%nat then (true, its len (S n)) else (false, repeat 0%nat len).
Proof.
  intros Hl Hn. unfold next, its. rewrite rev_involutive, next_digits by assumption.
  destruct (S n <? len ^ len)%nat; [ reflexivity | ].
  f_equal. clear. induction len as [ |l IH ]; [ reflexivity | ].
  cbn [repeat rev]. rewrite IH. clear. induction l as [ |l IH ]; cbn; [ reflexivity | ]. rewrite IH. reflexivity.
Qed.
Lemma rev_repeat {A} (a : A) k : rev (repeat a k) = repeat a k.
Proof.
  induction k as [ |k IH ]; [ reflexivity | ]. cbn [repeat rev]. rewrite IH.
  clear. induction k as [ |k IH ]; cbn; [ reflexivity | ]. rewrite IH. reflexivity.
Qed.
Lemma its_zero len : (0 < len)%nat -> its len 0 = repeat 0%nat len.
Proof. intros H. unfold its. rewrite digits_zero by assumption. apply rev_repeat. Qed.
Lemma its_inj len n m : (0 < len)%nat -> (n < len ^ len)%nat -> (m < len ^ len)%nat -> its len n = its len m -> n = m.
Proof.
  intros Hl Hn Hm E. apply (digits_inj len len Hl n m Hn Hm).
  rewrite <- (rev_involutive (digits len len n)), <- (rev_involutive (digits len len m)). unfold its in E. rewrite E. reflexivity.
Qed.
Lemma its_onto len l : (0 < len)%nat -> length l = len -> (forall d, In d l -> (d < len)%nat) ->
  exists n, (n < len ^ len)%nat /\ its len n = l.
Proof.
  intros Hl Hk Hd. destruct (digits_onto len len Hl (rev l)) as (n & Hn & E).
  - rewrite rev_length. exact Hk.
  - intros d H. apply Hd. apply in_rev. exact H.
  - exists n. split; [ exact Hn | ]. unfold its. rewrite E. apply rev_involutive.
Qed.
Lemma its_shape len n : (0 < len)%nat -> length (its len n) = len /\ forall d, In d (its len n) -> (d < len)%nat.
Proof.
  intros Hl. unfold its. split; [ rewrite rev_length; apply digits_length | ].
  intros d H. apply in_rev in H. apply (digits_small len len Hl n d H).
Qed.

(** *** The loop *)
Section Manual.
Variable D : Type.
Variable dadd : D -> D -> D.
Variable ddiv : D -> D -> D.
Variable dmul : D -> D -> D.
Variable dnat : nat -> D.
Variables c_1 c_01 c_1em2 c_1em7 c_09 c_5 : D.
Variable run : nat -> five D -> outcome bresult.
Notation course := (course D dadd ddiv dmul dnat c_1 c_01 c_1em2 c_1em7 c_09 c_5).
Notation manual_loop := (manual_loop D dadd ddiv dmul dnat c_1 c_01 c_1em2 c_1em7 c_09 c_5 run).
Notation manual_optimize := (manual_optimize D dadd ddiv dmul dnat c_1 c_01 c_1em2 c_1em7 c_09 c_5 run).

Lemma manual_loop_runs len p0 : (0 < len)%nat -> forall fuel n best bits done e, (n < len ^ len)%nat ->
  manual_loop fuel (length done) len p0 (its len n) best bits done = Ok (Some e) ->
  exists new, ce_runs _ e = done ++ new /\ length new = (len ^ len - n)%nat /\
    (forall j pr, nth_error new j = Some pr -> course p0 len (its len (n + j)) = Some (fst pr) /\ run (length done + j) (fst pr) = Ok (snd pr)) /\
    course p0 len (its len (len ^ len - 1)) = Some (ce_last _ e).
Proof.
  intros Hl. induction fuel as [ |fuel IH ]; intros n best bits done e Hn H; cbn [Tuning_model.manual_loop] in H; [ discriminate H | ].
  destruct (course p0 len (its len n)) as [ p | ] eqn:Ep; cbn [of_opt obind] in H; [ | discriminate H ].
  destruct (run (length done) p) as [ r | | ] eqn:Er; cbn [obind] in H; try discriminate H.
  match type of H with (obind ?b _) = _ => destruct b as [ b' | | ] eqn:Eb end; cbn [obind] in H; try discriminate H.
  rewrite (next_its len n Hl Hn) in H.
  destruct (Nat.ltb_spec (S n) (len ^ len)) as [ L | L ].
  - assert (El : S (length done) = length (done ++ [(p, r)])) by (rewrite app_length; cbn; lia).
    rewrite El in H. apply IH in H; [ | exact L ].
    destruct H as (new & H1 & H2 & H3 & H4). exists ((p, r) :: new).
    rewrite H1, <- app_assoc. split; [ reflexivity | ]. split; [ cbn [length]; rewrite H2; lia | ]. split; [ | exact H4 ].
    intros [ |j ] pr Hj; cbn in Hj.
    + injection Hj as <-. rewrite !Nat.add_0_r. cbn. auto.
    + apply H3 in Hj. rewrite <- El in Hj. replace (n + S j)%nat with (S n + j)%nat by lia. replace (length done + S j)%nat with (S (length done) + j)%nat by lia. exact Hj.
  - assert (En : n = (len ^ len - 1)%nat) by lia.
    injection H as <-. exists [(p, r)]. cbn [ce_runs ce_last]. split; [ reflexivity | ]. split; [ cbn; lia | ]. split.
    + intros [ |j ] pr Hj; cbn in Hj; [ | destruct j; discriminate Hj ]. injection Hj as <-. rewrite !Nat.add_0_r. cbn. auto.
    + rewrite <- En. exact Ep.
Qed.
Lemma manual_loop_ends len p0 : (0 < len)%nat -> forall fuel k n best bits done, (n < len ^ len)%nat -> (len ^ len - n <= fuel)%nat ->
  manual_loop fuel k len p0 (its len n) best bits done <> Ok None.
Proof.
  intros Hl. induction fuel as [ |fuel IH ]; intros k n best bits done Hn Hf; [ lia | ].
  cbn [Tuning_model.manual_loop].
  destruct (course p0 len (its len n)) as [ p | ]; cbn [of_opt obind]; [ | discriminate ].
  destruct (run k p) as [ r | | ]; cbn [obind]; try discriminate.
  match goal with |- (obind ?b _) <> _ => destruct b as [ b' | | ] end; cbn [obind]; try discriminate.
  rewrite (next_its len n Hl Hn). destruct (Nat.ltb_spec (S n) (len ^ len)); [ apply IH; lia | discriminate ].
Qed.
(** The loop never fails by itself. *)
Lemma course_ok len p0 n : (5 <= len)%nat -> course p0 len (its len n) <> None.
Proof.
  intros Hl. destruct (its_shape len n ltac:(lia)) as [ L S ]. destruct p0 as [[[[a b] c] d] e].
  unfold Tuning_model.course.
  assert (K : forall i, (i < 5)%nat -> exists x, nth_error (its len n) i = Some x /\ (x < len)%nat).
  { intros i Hi. destruct (nth_error (its len n) i) as [ x | ] eqn:E; [ exists x; split; [ reflexivity | apply S; apply (nth_error_In _ _ E) ] | ].
    apply nth_error_None in E. lia. }
  destruct (K 0%nat ltac:(lia)) as (x0 & -> & B0). destruct (K 1%nat ltac:(lia)) as (x1 & -> & B1).
  destruct (K 2%nat ltac:(lia)) as (x2 & -> & B2). destruct (K 3%nat ltac:(lia)) as (x3 & -> & B3). destruct (K 4%nat ltac:(lia)) as (x4 & -> & B4).
  cbn [bind forallb]. repeat (match goal with H : (?x < len)%nat |- context [ (?x <? len)%nat ] => rewrite (proj2 (Nat.ltb_lt x len) H) end).
  discriminate.
Qed.
Lemma manual_optimize_runs fuel p0 runs last r : manual_optimize fuel p0 = Ok (Some (runs, last, r)) ->
  length runs = (5 ^ 5)%nat /\
  (forall j pr, nth_error runs j = Some pr -> course p0 5 (its 5 j) = Some (fst pr) /\ run j (fst pr) = Ok (snd pr)) /\
  course p0 5 (repeat 4%nat 5) = Some last /\ run (5 ^ 5) last = Ok r.
Proof.
  unfold Tuning_model.manual_optimize. rewrite <- (its_zero 5) at 1 by lia. intros H.
  match type of H with (obind ?b _) = _ => destruct b as [ [ e | ] | | ] eqn:E end; cbn [obind] in H; try discriminate H.
  destruct (run (length (ce_runs D e)) (ce_last D e)) as [ x | | ] eqn:Er; cbn [obind] in H; try discriminate H.
  injection H as <- <- <-.
  apply (manual_loop_runs 5 p0 ltac:(lia) fuel 0 None _ [] e) in E; [ | apply Nat.neq_0_lt_0, Nat.pow_nonzero; lia ].
  destruct E as (new & H1 & H2 & H3 & H4). cbn [app] in H1. subst new. rewrite Nat.sub_0_r in H2.
  split; [ exact H2 | ]. split; [ exact H3 | ]. rewrite <- H2. split; [ | exact Er ].
  rewrite <- H4. f_equal.
Qed.
Lemma manual_optimize_ends fuel p0 : (5 ^ 5 <= fuel)%nat -> manual_optimize fuel p0 <> Ok None.
Proof.
  intros Hf. unfold Tuning_model.manual_optimize. rewrite <- (its_zero 5) at 1 by lia.
  pose proof (manual_loop_ends 5 p0 ltac:(lia) fuel 0 0 None (repeat 0%nat 5) [] ltac:(apply Nat.neq_0_lt_0, Nat.pow_nonzero; lia) ltac:(lia)) as K.
  match goal with |- (obind ?b _) <> _ => destruct b as [ [ e | ] | | ] end; cbn [obind]; try discriminate; [ | destruct K; reflexivity ].
  destruct (run _ _); cbn [obind]; discriminate.
Qed.
End Manual.
