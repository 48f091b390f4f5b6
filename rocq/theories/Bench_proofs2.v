(** The ranks of the statistics file. *)
From Coq Require Import QArith Ascii String Permutation Sorted Lqa.
From Verif Require Import Base Problem_model Params_model Writer_model ResultIO_model
  Dynarray_model Dynarray_spec Dynarray_proofs Bench_model Bench_spec Bench_proofs.
Open Scope string_scope.
Open Scope list_scope.
Open Scope nat_scope.

Lemma strict_weak_iff {A} (lt : A -> A -> bool) l : strict_weak lt l = true <->
  (forall a, In a l -> lt a a = false) /\
  (forall a b c, In a l -> In b l -> In c l -> lt a b = true -> lt b c = true -> lt a c = true) /\
  (forall a b c, In a l -> In b l -> In c l -> lt a b = false -> lt b c = false -> lt a c = false).
Proof.
  unfold strict_weak. rewrite andb_true_iff, !forallb_forall. split.
  - intros [H1 H2]. split; [intros a Ha; apply negb_true_iff, H1, Ha|].
    assert (H3 : forall a b c, In a l -> In b l -> In c l ->
      implb (lt a b && lt b c) (lt a c) && implb (negb (lt a b) && negb (lt b c)) (negb (lt a c)) = true).
    { intros a b c Ha Hb Hc. specialize (H2 a Ha). rewrite forallb_forall in H2. specialize (H2 b Hb). rewrite forallb_forall in H2. apply H2, Hc. }
    split; intros a b c Ha Hb Hc E1 E2; specialize (H3 a b c Ha Hb Hc); rewrite E1, E2 in H3; cbn in H3.
    + destruct (lt a c); [reflexivity|discriminate H3].
    + destruct (lt a c); [discriminate H3|reflexivity].
  - intros (H1 & H2 & H3). split; [intros a Ha; apply negb_true_iff, H1, Ha|].
    intros a Ha. apply forallb_forall. intros b Hb. apply forallb_forall. intros c Hc.
    specialize (H2 a b c Ha Hb Hc). specialize (H3 a b c Ha Hb Hc).
    destruct (lt a b), (lt b c); cbn; try reflexivity; rewrite ?H2, ?H3 by reflexivity; reflexivity.
Qed.

(** What a comparison of values must satisfy on some values. *)
Record orders (vlt : dbl -> dbl -> bool) (S : dbl -> Prop) : Prop := {
  o_irr : forall a, S a -> vlt a a = false;
  o_trans : forall a b c, S a -> S b -> S c -> vlt a b = true -> vlt b c = true -> vlt a c = true;
  o_neg : forall a b c, S a -> S b -> S c -> vlt a b = false -> vlt b c = false -> vlt a c = false;
  o_eq : forall a b, S a -> S b -> (vlt a b = false /\ vlt b a = false <-> deq a b = true) }.

Lemma StronglySorted_In_pairs {A} (R : A -> A -> Prop) l : StronglySorted R l ->
  forall i j a b, i < j -> nth_error l i = Some a -> nth_error l j = Some b -> R a b.
Proof.
  induction 1 as [|x l Hs IH Hf]; intros i j a b Hij Hi Hj; [destruct i; discriminate Hi|].
  destruct j as [|j]; [lia|]. cbn in Hj. destruct i as [|i]; cbn in Hi.
  - injection Hi as <-. rewrite Forall_forall in Hf. apply Hf. eapply nth_error_In; exact Hj.
  - apply (IH i j); auto. lia.
Qed.

Section Ranks.
Variable vlt : dbl -> dbl -> bool.
Variable S : dbl -> Prop.
Hypothesis HO : orders vlt S.
Notation lt a b := (vlt (rk_value a) (rk_value b)).

Lemma asym a b : S a -> S b -> vlt a b = true -> vlt b a = false.
Proof.
  intros Ha Hb E. destruct (vlt b a) eqn:E'; [|reflexivity]. pose proof (o_trans _ _ HO a b a Ha Hb Ha E E') as K.
  rewrite (o_irr _ _ HO a Ha) in K. discriminate K.
Qed.
Lemma deq_iff_not_lt a b : S a -> S b -> vlt b a = false -> (deq b a = true <-> vlt a b = false).
Proof. intros Ha Hb E. rewrite <- (o_eq _ _ HO b a Hb Ha). tauto. Qed.

Lemma ranks_from_value l : forall prev rank x, In x (ranks_from prev rank l) -> exists y, In y l /\ rk_value y = rk_value x.
Proof.
  induction l as [|a l IH]; intros prev rank x Hx; [destruct Hx|].
  cbn [ranks_from] in Hx. destruct Hx as [<-|Hx]; [exists a; split; [left; reflexivity|reflexivity]|].
  destruct (IH _ _ _ Hx) as (y & Hy & Ey). exists y. split; [right; exact Hy|exact Ey].
Qed.
(** After a prefix that ends with the value [prev] of rank [rank]. *)
Lemma ranks_from_spec l : forall prev rank, S prev -> (forall r, In r l -> S (rk_value r)) ->
  Forall (fun r => vlt (rk_value r) prev = false) l -> StronglySorted (fun a b => lt b a = false) l ->
  let L := ranks_from prev rank l in
  (forall r, In r L -> S (rk_value r) /\ rank <= rk_rank r /\ (rank < rk_rank r <-> vlt prev (rk_value r) = true)) /\
  StronglySorted (fun a b => lt b a = false /\ rk_rank a <= rk_rank b /\ (rk_rank a < rk_rank b <-> lt a b = true)) L /\
  (forall r, In r L -> rk_rank r = rank \/ rk_rank r = Datatypes.S rank \/ exists r', In r' L /\ rk_rank r = Datatypes.S (rk_rank r')).
Proof.
  induction l as [|r l IH]; intros prev rank Hp HS Hf Hs; cbn zeta.
  - cbn. split; [|split; [constructor|]]; intros ? [].
  - cbn [ranks_from]. set (rank' := if deq (rk_value r) prev then rank else Datatypes.S rank).
    apply Forall_inv in Hf as Hr. apply Forall_inv_tail in Hf as Hf'. inversion Hs as [|? ? Hs' Hfr]; subst.
    assert (Sr : S (rk_value r)) by (apply HS; left; reflexivity).
    assert (Hrank : rank <= rank' /\ (rank < rank' <-> vlt prev (rk_value r) = true)).
    { unfold rank'. pose proof (deq_iff_not_lt prev (rk_value r) Hp Sr Hr) as K.
      destruct (deq (rk_value r) prev).
      - rewrite (proj1 K eq_refl). split; [lia|]. split; [lia|discriminate].
      - destruct (vlt prev (rk_value r)); [split; [lia|]; split; [reflexivity|lia]|]. discriminate (proj2 K eq_refl). }
    destruct (IH (rk_value r) rank' Sr (fun x Hx => HS x (or_intror Hx)) Hfr Hs') as (I1 & I2 & I3).
    split; [|split].
    + intros x [<-|Hx]; cbn [rk_value rk_rank]; [split; [exact Sr|exact Hrank]|].
      destruct (I1 x Hx) as (Sx & Hle & Hlt). split; [exact Sx|]. split; [lia|]. split.
      * intros Hlt'. destruct (vlt prev (rk_value r)) eqn:E1.
        -- destruct (vlt (rk_value r) (rk_value x)) eqn:E2; [eapply (o_trans _ _ HO); [exact Hp|exact Sr|exact Sx|exact E1|exact E2]|].
           destruct (vlt prev (rk_value x)) eqn:E3; [reflexivity|].
           assert (Ecx : vlt (rk_value x) (rk_value r) = false).
           { destruct (vlt (rk_value x) (rk_value r)) eqn:E4; [|reflexivity].
             exfalso.
             destruct (ranks_from_value _ _ _ _ Hx) as (y & Hy & Ey).
             rewrite Forall_forall in Hfr. specialize (Hfr y Hy). cbn in Hfr. rewrite Ey in Hfr. rewrite E4 in Hfr. discriminate Hfr. }
           pose proof (o_neg _ _ HO prev (rk_value x) (rk_value r) Hp Sx Sr E3 Ecx) as K. rewrite K in E1. discriminate E1.
        -- assert (rank' = rank) by (destruct Hrank as [? [K _]]; destruct (Nat.eq_dec rank' rank); [assumption|]; specialize (K ltac:(lia)); discriminate K).
           assert (E2 : vlt (rk_value r) (rk_value x) = true) by (apply Hlt; lia).
           destruct (vlt prev (rk_value x)) eqn:E3; [reflexivity|].
           pose proof (o_neg _ _ HO (rk_value r) prev (rk_value x) Sr Hp Sx Hr E3) as K. rewrite K in E2. discriminate E2.
      * intros E3. destruct (vlt prev (rk_value r)) eqn:E1; [destruct Hrank as [_ [_ K]]; specialize (K eq_refl); lia|].
        destruct (vlt (rk_value r) (rk_value x)) eqn:E2; [assert (rank' < rk_rank x) by (apply Hlt; reflexivity); lia|].
        pose proof (o_neg _ _ HO prev (rk_value r) (rk_value x) Hp Sr Sx E1 E2) as K. rewrite K in E3. discriminate E3.
    + constructor; [exact I2|]. apply Forall_forall. intros x Hx. cbn [rk_value rk_rank]. destruct (I1 x Hx) as (Sx & Hle & Hlt).
      split; [|split; [exact Hle|exact Hlt]].
      destruct (ranks_from_value _ _ _ _ Hx) as (y & Hy & Ey).
      rewrite Forall_forall in Hfr. specialize (Hfr y Hy). cbn in Hfr. rewrite Ey in Hfr. exact Hfr.
    + assert (Hr' : rank' = rank \/ rank' = Datatypes.S rank) by (unfold rank'; destruct (deq _ _); auto).
      intros x [<-|Hx]; cbn [rk_rank].
      * destruct Hr' as [->| ->]; auto.
      * destruct (I3 x Hx) as [E|[E|(y & Hy & E)]].
        -- rewrite E. destruct Hr' as [->| ->]; auto.
        -- right; right. exists (mk_ranked (rk_value r) (rk_position r) rank'). split; [left; reflexivity|exact E].
        -- right; right. exists y. split; [right; exact Hy|exact E].
Qed.

Lemma ranks_from_same l : forall prev rank, map (fun r => (rk_value r, rk_position r)) (ranks_from prev rank l) = map (fun r => (rk_value r, rk_position r)) l.
Proof. induction l as [|r l IH]; intros prev rank; cbn; [reflexivity|]. rewrite IH. reflexivity. Qed.

(** A sorted list with its ranks. *)
Lemma give_ranks_spec l : l <> [] -> (forall r, In r l -> S (rk_value r)) -> StronglySorted (fun a b => lt b a = false) l ->
  exists L, give_ranks l = Some L /\ map (fun r => (rk_value r, rk_position r)) L = map (fun r => (rk_value r, rk_position r)) l /\
    (forall a b, In a L -> In b L -> (rk_rank a < rk_rank b <-> lt a b = true)) /\
    (forall a, In a L -> rk_rank a = 1 \/ exists b, In b L /\ rk_rank a = Datatypes.S (rk_rank b) /\ 1 <= rk_rank b).
Proof.
  intros Hne HS Hs. destruct l as [|r l]; [contradiction|]. unfold give_ranks. inversion Hs as [|? ? Hs' Hfr]; subst.
  assert (Sr : S (rk_value r)) by (apply HS; left; reflexivity).
  destruct (ranks_from_spec l (rk_value r) 1 Sr (fun x Hx => HS x (or_intror Hx)) Hfr Hs') as (I1 & I2 & I3).
  set (h := mk_ranked (rk_value r) (rk_position r) 1). set (T := ranks_from (rk_value r) 1 l) in *.
  exists (h :: T). split; [reflexivity|]. split; [cbn [map]; unfold T; rewrite ranks_from_same; reflexivity|].
  assert (HL : StronglySorted (fun a b => lt b a = false /\ rk_rank a <= rk_rank b /\ (rk_rank a < rk_rank b <-> lt a b = true)) (h :: T)).
  { constructor; [exact I2|]. apply Forall_forall. intros x Hx. destruct (I1 x Hx) as (Sx & Hle & Hlt). cbn [h rk_value rk_rank].
    split; [|split; assumption].
    assert (exists y, In y l /\ rk_value y = rk_value x) as (y & Hy & Ey).
    { assert (Hin : In (rk_value x, rk_position x) (map (fun r => (rk_value r, rk_position r)) T)) by (apply in_map_iff; exists x; auto).
      unfold T in Hin. rewrite ranks_from_same in Hin. apply in_map_iff in Hin. destruct Hin as (y & E & Hy). exists y.
      split; [exact Hy|congruence]. }
    rewrite Forall_forall in Hfr. specialize (Hfr y Hy). cbn in Hfr. rewrite Ey in Hfr. exact Hfr. }
  assert (HSL : forall a, In a (h :: T) -> S (rk_value a)) by (intros a [<-|Ha]; [exact Sr|apply (I1 a Ha)]).
  split.
  - intros a b Ha Hb. apply In_nth_error in Ha as Hia. apply In_nth_error in Hb as Hib. destruct Hia as [i Hi], Hib as [j Hj].
    destruct (Nat.lt_trichotomy i j) as [K|[K|K]].
    + destruct (StronglySorted_In_pairs _ _ HL i j a b K Hi Hj) as (_ & _ & G). exact G.
    + subst j. assert (a = b) by congruence. subst b. rewrite (o_irr _ _ HO _ (HSL a Ha)). split; [lia|discriminate].
    + destruct (StronglySorted_In_pairs _ _ HL j i b a K Hj Hi) as (G & Hle & _). rewrite G. split; [lia|discriminate].
  - intros a [<-|Ha]; [left; reflexivity|]. destruct (I3 a Ha) as [E|[E|(y & Hy & E)]]; [left; exact E| |]; right.
    + exists h. cbn. split; [left; reflexivity|]. split; [exact E|lia].
    + exists y. split; [right; exact Hy|]. split; [exact E|]. apply (I1 y Hy).
Qed.

(** The lines sorted by position again. *)
Lemma make_line_pairs vs : map (fun r => (rk_value r, rk_position r)) (make_line vs) = combine vs (seq 0 (List.length vs)).
Proof. unfold make_line. rewrite map_map. rewrite <- (map_id (combine _ _)) at 2. apply map_ext. intros [v p]; reflexivity. Qed.
Lemma combine_seq_nth {A} (l : list A) k i x : nth_error (combine l (seq k (List.length l))) i = Some x <->
  exists v, nth_error l i = Some v /\ x = (v, k + i).
Proof.
  revert k i. induction l as [|a l IH]; intros k i; cbn [List.length seq combine].
  - destruct i; cbn; split; try discriminate; intros (v & E & _); discriminate E.
  - destruct i as [|i]; cbn [nth_error].
    + split; [intros E; injection E as <-; exists a; rewrite Nat.add_0_r; auto|].
      intros (v & E & ->). injection E as <-. rewrite Nat.add_0_r. reflexivity.
    + rewrite IH. replace (Datatypes.S k + i) with (k + Datatypes.S i) by lia. reflexivity.
Qed.
Lemma combine_seq_in {A} (l : list A) v p : In (v, p) (combine l (seq 0 (List.length l))) <-> nth_error l p = Some v.
Proof.
  split.
  - intros H. apply In_nth_error in H. destruct H as [i H]. apply combine_seq_nth in H. destruct H as (u & E & K). cbn in K. congruence.
  - intros H. eapply nth_error_In. apply (combine_seq_nth l 0 p (v, p)). exists v. auto.
Qed.
Lemma sorted_seq (l : list nat) k : (forall p, In p l <-> k <= p < k + List.length l) -> NoDup l ->
  StronglySorted (fun a b => Nat.ltb b a = false) l -> l = seq k (List.length l).
Proof.
  revert k. induction l as [|a l IH]; intros k H Hn Hs; [reflexivity|]. cbn [List.length seq].
  inversion Hs as [|? ? Hs' Hf]; subst. inversion Hn as [|? ? Hni Hn']; subst.
  assert (a = k).
  { assert (Hk : In k (a :: l)) by (apply H; cbn; lia). destruct Hk as [E|Hk]; [exact E|].
    rewrite Forall_forall in Hf. specialize (Hf k Hk). apply Nat.ltb_ge in Hf.
    assert (k <= a) by (apply (H a); left; reflexivity). lia. }
  subst a. f_equal. apply IH; auto. intros p. specialize (H p). cbn [In List.length] in H. split.
  - intros Hp. assert (p <> k) by (intros ->; contradiction). destruct H as [H _]. specialize (H (or_intror Hp)). lia.
  - intros Hp. destruct H as [_ H]. destruct (H ltac:(lia)) as [->|?]; [lia|assumption].
Qed.

Variable std_sort : forall A : Type, (A -> A -> bool) -> list A -> list A.
Hypothesis Hsort : sorts_lists std_sort.

Lemma sort_positions L vs : Permutation (map (fun r => (rk_value r, rk_position r)) L) (combine vs (seq 0 (List.length vs))) ->
  exists L3, sort_with std_sort position_before L = Some L3 /\ Permutation L3 L /\
    map (fun r => (rk_value r, rk_position r)) L3 = combine vs (seq 0 (List.length vs)).
Proof.
  intros HP. unfold sort_with.
  assert (Hw : strict_weak position_before L = true).
  { apply strict_weak_iff. unfold position_before. split; [|split].
    - intros a _. apply Nat.ltb_irrefl.
    - intros a b c _ _ _ E1 E2. apply Nat.ltb_lt in E1, E2. apply Nat.ltb_lt. lia.
    - intros a b c _ _ _ E1 E2. apply Nat.ltb_ge in E1, E2. apply Nat.ltb_ge. lia. }
  rewrite Hw. apply strict_weak_iff in Hw. destruct Hw as (W1 & W2 & W3).
  destruct (Hsort _ position_before L W1 W2 W3) as [HP3 HS3]. set (L3 := std_sort ranked position_before L) in *.
  exists L3. split; [reflexivity|]. split; [exact HP3|].
  set (f := fun r => (rk_value r, rk_position r)) in *.
  assert (HP' : Permutation (map f L3) (combine vs (seq 0 (List.length vs)))) by (eapply Permutation_trans; [apply Permutation_map, HP3|exact HP]).
  assert (Hlen : List.length L3 = List.length vs).
  { apply Permutation_length in HP'. rewrite map_length, combine_length, seq_length, Nat.min_id in HP'. exact HP'. }
  assert (Hpos : map rk_position L3 = seq 0 (List.length vs)).
  { assert (HPp : Permutation (map rk_position L3) (seq 0 (List.length vs))).
    { replace (map rk_position L3) with (map snd (map f L3)) by (rewrite map_map; reflexivity).
      eapply Permutation_trans; [apply Permutation_map, HP'|].
      replace (map snd (combine vs (seq 0 (List.length vs)))) with (seq 0 (List.length vs)); [apply Permutation_refl|].
      clear. generalize 0. induction vs as [|v vs IH]; intros k; cbn; [reflexivity|]. rewrite <- IH. reflexivity. }
    rewrite <- Hlen. replace (List.length L3) with (List.length (map rk_position L3)) by apply map_length.
    apply sorted_seq.
    - intros p. rewrite map_length, Hlen. rewrite <- in_seq. split; apply Permutation_in; [exact HPp|apply Permutation_sym, HPp].
    - eapply Permutation_NoDup; [apply Permutation_sym, HPp|apply seq_NoDup].
    - clear -HS3. induction HS3 as [|a l Hs IH Hf]; cbn [map]; constructor; [exact IH|].
      apply Forall_forall. intros p Hp. apply in_map_iff in Hp. destruct Hp as (r & <- & Hr). rewrite Forall_forall in Hf. apply (Hf r Hr). }
  apply nth_error_ext. intros i.
  destruct (nth_error L3 i) as [r|] eqn:E.
  - rewrite (map_nth_error f _ _ E). symmetry. apply combine_seq_nth. exists (rk_value r).
    assert (Hp : rk_position r = i).
    { assert (K : nth_error (map rk_position L3) i = Some (rk_position r)) by (apply map_nth_error, E).
      rewrite Hpos in K. assert (i < List.length vs) by (rewrite <- Hlen; apply nth_error_Some; rewrite E; discriminate).
      rewrite nth_error_nth' with (d := 0) in K by (rewrite seq_length; assumption). rewrite seq_nth in K by assumption. cbn in K. congruence. }
    split; [|unfold f; rewrite Hp; reflexivity].
    assert (Hin : In (f r) (combine vs (seq 0 (List.length vs)))) by (eapply Permutation_in; [exact HP'|apply in_map, nth_error_In with (n := i), E]).
    unfold f in Hin. apply combine_seq_in in Hin. rewrite Hp in Hin. exact Hin.
  - assert (List.length L3 <= i) by (apply nth_error_None, E).
    transitivity (@None (dbl * nat)); [|symmetry]; apply nth_error_None; rewrite ?map_length, ?combine_length, ?seq_length; lia.
Qed.

Lemma ranks_dense vs : vs <> [] -> (forall v, In v vs -> S v) ->
  exists l1 l2 l3, sort_with std_sort (fun a b => vlt (rk_value a) (rk_value b)) (make_line vs) = Some l1 /\
    give_ranks l1 = Some l2 /\ sort_with std_sort position_before l2 = Some l3 /\ Permutation l3 l2 /\
    map (fun r => (rk_value r, rk_position r)) l3 = combine vs (seq 0 (List.length vs)) /\
    dense_ranks (fun v w => vlt v w = true) vs (map rk_rank l3).
Proof.
  intros Hne HS. set (f := fun r => (rk_value r, rk_position r)) in *.
  assert (HSl : forall r, In r (make_line vs) -> S (rk_value r)).
  { intros r Hr. apply HS. assert (Hin : In (f r) (map f (make_line vs))) by (apply in_map, Hr).
    unfold f in Hin. rewrite make_line_pairs in Hin. apply in_combine_l in Hin. exact Hin. }
  assert (Hw : strict_weak (fun a b => vlt (rk_value a) (rk_value b)) (make_line vs) = true).
  { apply strict_weak_iff. split; [|split].
    - intros a Ha. apply (o_irr _ _ HO), HSl, Ha.
    - intros a b c Ha Hb Hc. apply (o_trans _ _ HO); apply HSl; assumption.
    - intros a b c Ha Hb Hc. apply (o_neg _ _ HO); apply HSl; assumption. }
  unfold sort_with at 1. rewrite Hw. apply strict_weak_iff in Hw. destruct Hw as (W1 & W2 & W3).
  destruct (Hsort _ _ _ W1 W2 W3) as [HP1 HS1]. set (l1 := std_sort _ _ (make_line vs)) in *. exists l1.
  assert (Hl1 : l1 <> []).
  { intros E. rewrite E in HP1. apply Permutation_nil in HP1. unfold make_line in HP1. apply map_eq_nil in HP1.
    destruct vs; [contradiction|discriminate HP1]. }
  destruct (give_ranks_spec l1 Hl1) as (l2 & E2 & Esame & Hpair & Hdense).
  { intros r Hr. apply HSl. eapply Permutation_in; [exact HP1|exact Hr]. }
  { exact HS1. }
  exists l2. destruct (sort_positions l2 vs) as (l3 & E3 & HP3 & Epos).
  { rewrite Esame. rewrite <- make_line_pairs. apply Permutation_map, HP1. }
  exists l3. repeat split; auto.
  - rewrite map_length. apply (f_equal (@List.length _)) in Epos. rewrite map_length, combine_length, seq_length, Nat.min_id in Epos. exact Epos.
  - intros Hlt. revert Hlt.
    assert (G : forall i r v, nth_error vs i = Some v -> nth_error (map rk_rank l3) i = Some r -> exists a, In a l2 /\ rk_rank a = r /\ rk_value a = v).
    { intros i' r' v' Hv Hr. rewrite nth_error_map in Hr. destruct (nth_error l3 i') as [a|] eqn:Ea; [|discriminate Hr]. cbn in Hr.
      exists a. split; [eapply Permutation_in; [exact HP3|eapply nth_error_In, Ea]|]. split; [congruence|].
      assert (K : nth_error (map f l3) i' = Some (f a)) by (apply map_nth_error, Ea). unfold f in K. rewrite Epos in K.
      apply combine_seq_nth in K. destruct K as (u & Eu & K). congruence. }
    destruct (G i r v H H1) as (a & Ha & <- & <-). destruct (G j s w H0 H2) as (b & Hb & <- & <-). apply (Hpair a b Ha Hb).
  - intros Hlt.
    assert (G : forall i r v, nth_error vs i = Some v -> nth_error (map rk_rank l3) i = Some r -> exists a, In a l2 /\ rk_rank a = r /\ rk_value a = v).
    { intros i' r' v' Hv Hr. rewrite nth_error_map in Hr. destruct (nth_error l3 i') as [a|] eqn:Ea; [|discriminate Hr]. cbn in Hr.
      exists a. split; [eapply Permutation_in; [exact HP3|eapply nth_error_In, Ea]|]. split; [congruence|].
      assert (K : nth_error (map f l3) i' = Some (f a)) by (apply map_nth_error, Ea). unfold f in K. rewrite Epos in K.
      apply combine_seq_nth in K. destruct K as (u & Eu & K). congruence. }
    destruct (G i r v H H1) as (a & Ha & <- & <-). destruct (G j s w H0 H2) as (b & Hb & <- & <-). apply (Hpair a b Ha Hb), Hlt.
  - intros i r Hr. apply nth_error_In in Hr. apply in_map_iff in Hr. destruct Hr as (a & <- & Ha).
    assert (Ha2 : In a l2) by (eapply Permutation_in; [exact HP3|exact Ha]).
    destruct (Hdense a Ha2) as [E|(b & Hb & E & Hge)]; [left; exact E|right].
    assert (Hb3 : In b l3) by (eapply Permutation_in; [apply Permutation_sym, HP3|exact Hb]).
    apply In_nth_error in Hb3. destruct Hb3 as [j Hj]. exists j. split; [|lia].
    rewrite E. cbn. rewrite Nat.sub_0_r. apply map_nth_error, Hj.
Qed.
End Ranks.
