From Verif Require Import Base Problem_model Rows_model Rows_proofs Validate_model Solver_model Pool_model Pool_spec Pool_proofs Restart_spec.

Lemma mutation_from_spec x : forall k draws i b, nth_error x i = Some b ->
  nth_error (mutation_from k draws x) i =
    Some (match nth i draws None with Some v => if Nat.eqb (Nat.modulo (k + i) 64) 0 then v else false | None => b end).
Proof.
  induction x as [|a x IH]; intros k draws i b Hi; [destruct i; discriminate|]. cbn [mutation_from].
  destruct draws as [|[v|] d].
  - rewrite Hi. destruct i; reflexivity.
  - destruct i as [|i]; cbn [nth_error nth] in *; [rewrite Nat.add_0_r; reflexivity|]. rewrite <- Nat.add_succ_comm. apply IH. exact Hi.
  - destruct i as [|i]; cbn [nth_error nth] in *; [exact Hi|]. rewrite <- Nat.add_succ_comm. apply IH. exact Hi.
Qed.
Lemma mutation_in_place draws x : mutated_in_place draws x (mutation_from 0 draws x).
Proof. split; [apply mutation_length|]. intros i b Hi. apply (mutation_from_spec x 0 draws i b Hi). Qed.
Lemma cross_mixed mask : forall y1 y2 n, length mask = n -> length y1 = n -> length y2 = n -> mixed n y1 y2 (cross mask y1 y2).
Proof.
  induction mask as [|m mask IH]; intros y1 y2 n Hm H1 H2; destruct y1 as [|a y1], y2 as [|c y2]; cbn in *; subst n; try discriminate.
  - split; [reflexivity|]. intros i b Hi. destruct i; discriminate.
  - destruct (IH y1 y2 (length mask) eq_refl ltac:(lia) ltac:(lia)) as [L H]. split; [cbn; lia|].
    intros i b Hi. destruct i as [|i]; cbn in *; [destruct m; injection Hi as <-; auto|]. apply H. exact Hi.
Qed.
Lemma x_at_member p r id y : x_at p r = Some (id, y) -> exists e, nth_error (pl_data p) id = Some e /\ e_x e = y.
Proof.
  unfold x_at. destruct (nth_error (pl_indices p) r) as [k|]; cbn [bind]; [|discriminate].
  destruct (nth_error (pl_data p) k) as [e|] eqn:E; cbn [bind]; [|discriminate]. intros H. injection H as <- <-. eauto.
Qed.
Lemma set_x_replaced p id z p' : set_x p id z = Some p' -> member_replaced p p' id z.
Proof.
  unfold set_x. destruct (list_modify _ id _) as [d|] eqn:E; cbn [bind]; [|discriminate]. intros H. injection H as <-. cbn [pl_data].
  split; [apply (list_modify_len _ _ _ _ E)|]. intros k e Hk. pose proof (list_modify_nth _ _ _ _ k E) as N.
  destruct (Nat.eqb_spec k id) as [->|Hne].
  - rewrite Hk in N. cbn in N. eexists. split; [exact N|]. cbn. auto.
  - rewrite Hk in N. exists e. split; [exact N|]. auto.
Qed.
Section Restart.
Context {F : Type} (fo : fops F) (op : oparams F) (n : nat).
Lemma crossover_spec p x p' y : crossover (op_insertion op) p x p' y -> pool_sized n p -> length x = n ->
  from_two_members n p p' y \/
  (op_insertion op = true /\ exists z, (z = pl_bastert p \/ z = pl_random p') /\ with_another n p p' x z y).
Proof.
  intros H Hp Hx. pose proof Hp as (Hb & _ & _).
  destruct H as [p x r id y mask Hi Ha Hl|p x r id y p' Hi Ha Hs|p x r id y mask rnd Hi Ha Hl Hr|p x r id y rnd p' Hi Ha Hr Hs|p x r1 id1 y1 r2 id2 y2 mask A1 A2 Hne Hl].
  - right. split; [assumption|]. exists (pl_bastert p). split; [left; reflexivity|]. split; [assumption|].
    destruct (x_at_member _ _ _ _ Ha) as (e & E1 & E2). exists id, e. split; [assumption|]. left. split; [reflexivity|].
    rewrite E2. apply cross_mixed; [congruence|eapply x_at_length; eassumption|assumption].
  - right. split; [assumption|]. exists (pl_bastert p). split; [left; reflexivity|]. split; [assumption|].
    destruct (x_at_member _ _ _ _ Ha) as (e & E1 & E2). exists id, e. split; [assumption|]. right. split; [reflexivity|]. apply set_x_replaced. exact Hs.
  - right. split; [assumption|]. exists rnd. split; [right; reflexivity|]. split; [congruence|].
    destruct (x_at_member _ _ _ _ Ha) as (e & E1 & E2). exists id, e. split; [assumption|]. left. split; [reflexivity|].
    rewrite E2. apply cross_mixed; [congruence|eapply x_at_length; eassumption|congruence].
  - right. split; [assumption|]. exists rnd. split; [right|].
    { apply set_x_fields in Hs. destruct Hs as (_ & _ & Hs & _). rewrite Hs. reflexivity. }
    split; [congruence|]. destruct (x_at_member _ _ _ _ Ha) as (e & E1 & E2). exists id, e. split; [assumption|]. right. split; [reflexivity|].
    exact (set_x_replaced (with_random p rnd) id rnd p' Hs).
  - left. split; [reflexivity|]. destruct (x_at_member _ _ _ _ A1) as (e1 & E1 & E2), (x_at_member _ _ _ _ A2) as (e2 & E3 & E4).
    exists id1, id2, e1, e2. split; [assumption|]. split; [assumption|]. split; [assumption|]. rewrite E2, E4.
    apply cross_mixed; [congruence|eapply x_at_length; eassumption|eapply x_at_length; eassumption].
Qed.
Lemma reinit_spec p a x p' a' kappa x' : reinit fo op p a x p' a' kappa x' -> pool_sized n p -> length x = n ->
  exists y draws, (if op_mutation op then mutated_in_place draws y x' else x' = y) /\
  ((fl_lt fo a (op_stop op) = true /\ p' = p /\ y = x /\ a' = fl_add fo a (op_increase op) /\
    kappa = fl_add fo (pa_kappa_min (op_s op)) (fl_mul fo (fl_sub fo (pa_kappa_max (op_s op)) (pa_kappa_min (op_s op))) a')) \/
   (fl_lt fo a (op_stop op) = false /\ a' = op_start op /\ kappa = pa_kappa_min (op_s op) /\
    (from_two_members n p p' y \/ (op_insertion op = true /\ exists z, (z = pl_bastert p \/ z = pl_random p') /\ with_another n p p' x z y)))).
Proof.
  intros H Hp Hx. destruct H as [p a x draws x' Ha Hx' a'|p a x p' y draws x' Ha Hc Hx'].
  - exists x, draws. split; [subst x'; destruct (op_mutation op); [apply mutation_in_place|reflexivity]|]. left. repeat split; assumption.
  - exists y, draws. split; [subst x'; destruct (op_mutation op); [apply mutation_in_place|reflexivity]|]. right.
    split; [assumption|]. split; [reflexivity|]. split; [reflexivity|]. apply crossover_spec; assumption.
Qed.
End Restart.
