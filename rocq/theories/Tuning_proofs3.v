(** One turn of the branch optimizer: what it keeps and in what order the jobs wait. *)
From Coq Require Import Permutation.
From Verif Require Import Base Problem_model Problem_spec Preprocess_model Tuning_model Tuning_spec.
Open Scope Z_scope.

Lemma is_best_spec t l r b : is_best l r t = Some b -> (b = true -> ~ better_find t (found r) (found l)) /\ (b = false -> ~ better_find t (found l) (found r)) /\
  (b = true -> found l = None -> found r = None).
Proof.
  unfold is_best, found, front, better_find, better_value. destruct (b_success l), (b_success r); cbn [bind].
  - destruct (hd_error (b_values l)) as [a|]; cbn [bind]; [|discriminate]. destruct (hd_error (b_values r)) as [q|]; cbn [bind]; [|discriminate].
    intros H. injection H as <-. destruct t; repeat split; try discriminate; intros H; (apply Z.ltb_lt in H || apply Z.ltb_ge in H); lia.
  - intros H. injection H as <-. repeat split; try discriminate; intros _; try tauto.
  - intros H. injection H as <-. repeat split; try discriminate; intros _; tauto.
  - intros H. injection H as <-. repeat split; intros; tauto.
Qed.
Lemma better_find_trans t a b c : ~ better_find t a b -> ~ better_find t b c -> ~ better_find t a c.
Proof. unfold better_find, better_value. destruct a, b, c, t; try tauto; lia. Qed.
Lemma better_find_irrefl t a : ~ better_find t a a.
Proof. unfold better_find, better_value. destruct a, t; try tauto; lia. Qed.

Lemma finish_type fuel pb aff ch s q : finish fuel pb aff ch s = Ok (Some q) -> p_type q = p_type pb.
Proof.
  unfold finish. destruct (affects fuel pb ch s) as [[s1|]| |]; cbn [obind]; try discriminate.
  destruct (make_lp_from_bqp_objective pb ch s1) as [mo|]; cbn [of_opt obind]; [|discriminate].
  destruct (try_remove_unused_variable pb ch s1) as [s2|]; cbn [of_opt obind]; [|discriminate].
  destruct (affects fuel pb ch s2) as [[s3|]| |]; cbn [obind]; try discriminate.
  unfold make_problem, Classify_model.ensures. destruct (Nat.eqb _ _); cbn [obind]; [|discriminate].
  destruct (objective_function_exclude_copy _ _ _) as [obj|]; cbn [of_opt obind]; [|discriminate].
  destruct (variables_exclude_copy _ _ _ _ _) as [[vs af]|]; cbn [of_opt obind]; [|discriminate].
  destruct (names_kept _ _ _); cbn [obind]; [|discriminate].
  destruct (constraints_exclude_copy _ _ (p_equal pb)) as [eq|]; cbn [of_opt obind]; [|discriminate].
  destruct (constraints_exclude_copy _ _ (p_greater pb)) as [gr|]; cbn [of_opt obind]; [|discriminate].
  destruct (constraints_exclude_copy _ _ (p_less pb)) as [le|]; cbn [of_opt obind]; [|discriminate].
  destruct (_ && _)%bool; cbn [obind]; [|discriminate]. intros H. injection H as <-. reflexivity.
Qed.
Lemma split_type fuel pb v a b : split fuel pb v = Ok (Some a, Some b) -> p_type a = p_type pb /\ p_type b = p_type pb.
Proof.
  unfold split, affect, Classify_model.ensures. destruct (Nat.ltb v _); cbn [obind]; [|discriminate].
  destruct (make_caches pb) as [ch|]; cbn [of_opt obind]; [|discriminate].
  match goal with |- context [obind (finish ?f ?p ?af ?c ?s) _] => destruct (finish f p af c s) as [a1| |] eqn:E1; cbn [obind]; try discriminate end.
  match goal with |- context [obind (finish ?f ?p ?af ?c ?s) _] => destruct (finish f p af c s) as [b1| |] eqn:E2; cbn [obind]; try discriminate end.
  intros H. injection H as -> ->. split; eapply finish_type; eassumption.
Qed.

Lemma node_less_spec t a b : p_type (n_problem a) = t -> node_less a b = true <-> more_promising t a b.
Proof.
  intros <-. unfold node_less, more_promising, better_value.
  destruct (Z.eqb_spec (n_remaining a) 0) as [Ha|Ha]; destruct (Z.eqb_spec (n_remaining b) 0) as [Hb|Hb].
  - destruct (p_type (n_problem a)); rewrite Z.ltb_lt; intuition lia.
  - split; [intros _; left; auto|reflexivity].
  - split; [discriminate|]. intuition lia.
  - rewrite Z.ltb_lt. intuition lia.
Qed.
Lemma more_promising_trans t a b c : more_promising t a b -> ~ more_promising t c b -> more_promising t a c.
Proof. unfold more_promising, better_value. destruct t; lia. Qed.
Lemma not_more_trans t a b c : ~ more_promising t a b -> ~ more_promising t b c -> ~ more_promising t a c.
Proof. unfold more_promising, better_value. destruct t; lia. Qed.

Lemma in_order_cons t a l : in_order t (a :: l) <-> (forall b, In b l -> ~ more_promising t b a) /\ in_order t l.
Proof.
  split.
  - intros H. split.
    + intros b Hb. apply In_nth_error in Hb. destruct Hb as [j Hj]. apply (H 0%nat (S j) a b); [lia|reflexivity|exact Hj].
    + intros i j x y Hij Hx Hy. apply (H (S i) (S j) x y); [lia|exact Hx|exact Hy].
  - intros [H1 H2] i j x y Hij Hx Hy. destruct j as [|j]; [lia|]. destruct i as [|i].
    + injection Hx as <-. apply H1. eapply nth_error_In. exact Hy.
    + apply (H2 i j x y); [lia|exact Hx|exact Hy].
Qed.
Lemma emplace_perm a l : Permutation (jobs_emplace a l) (a :: l).
Proof.
  induction l as [|b l IH]; cbn [jobs_emplace]; [reflexivity|]. destruct (node_less a b); [reflexivity|].
  rewrite IH. apply perm_swap.
Qed.
Lemma emplace_order t a l : p_type (n_problem a) = t -> in_order t l -> in_order t (jobs_emplace a l).
Proof.
  intros Ha. induction l as [|b l IH]; intros Ho; cbn [jobs_emplace].
  - apply in_order_cons. split; [intros b []|exact Ho].
  - pose proof Ho as Ho'. apply in_order_cons in Ho'. destruct Ho' as [H1 H2].
    destruct (node_less a b) eqn:E.
    + apply (node_less_spec t a b Ha) in E. apply in_order_cons. split; [|exact Ho]. intros d Hd Hp.
      assert (Hdb : ~ more_promising t d b) by (destruct Hd as [<-|Hd]; [unfold more_promising, better_value; destruct t; lia|apply H1, Hd]).
      apply Hdb. revert E Hp. clear. unfold more_promising, better_value. destruct t; lia.
    + apply in_order_cons. split; [|apply IH, H2]. intros d Hd Hp.
      apply (Permutation_in _ (emplace_perm a l)) in Hd. destruct Hd as [<-|Hd]; [|exact (H1 d Hd Hp)].
      apply (node_less_spec t a b Ha) in Hp. congruence.
Qed.

Lemma branch_turn_keeps run k annoying it jobs best jobs2 best2 :
  branch_turn run k annoying it jobs best = Ok (Some (jobs2, best2)) ->
  exists p0 p1 r0 r1, split (S (length (v_values (p_vars (n_problem it))))) (n_problem it) (Z.to_nat annoying) = Ok (Some p0, Some p1) /\
    run k p0 = Ok r0 /\ run (S k) p1 = Ok r1 /\ In best2 [best; r0; r1] /\
    (forall r, In r [best; r0; r1] -> ~ better_find (p_type (n_problem it)) (found r) (found best2)) /\
    (exists n0 n1, n_problem n0 = p0 /\ n_problem n1 = p1 /\ n_remaining n0 = b_remaining r0 /\ n_remaining n1 = b_remaining r1 /\
       Permutation jobs2 (n0 :: n1 :: jobs)) /\
    (in_order (p_type (n_problem it)) jobs -> in_order (p_type (n_problem it)) jobs2).
Proof.
  unfold branch_turn. destruct (at_index _ _) as [nm|]; cbn [of_opt obind]; [|discriminate].
  unfold split_all. destruct (annoying <? 0); [discriminate|].
  destruct (split _ _ _) as [[[p0|] [p1|]]| |] eqn:Es; cbn [obind]; try discriminate.
  destruct (run k p0) as [r0| |] eqn:E0; cbn [obind]; try discriminate.
  destruct (is_best r0 best _) as [i0|] eqn:Ei0; cbn [of_opt obind]; [|discriminate].
  destruct (make_node p0 r0) as [n0|] eqn:En0; cbn [of_opt obind]; [|discriminate].
  destruct (run (S k) p1) as [r1| |] eqn:E1; cbn [obind]; try discriminate.
  destruct (is_best r1 _ _) as [i1|] eqn:Ei1; cbn [of_opt obind]; [|discriminate].
  destruct (make_node p1 r1) as [n1|] eqn:En1; cbn [of_opt obind]; [|discriminate].
  intros H. injection H as <- <-. exists p0, p1, r0, r1. split; [reflexivity|]. split; [exact E0|]. split; [exact E1|].
  apply is_best_spec in Ei0, Ei1. destruct Ei0 as (A1 & A2 & A3), Ei1 as (B1 & B2 & B3). set (t := p_type (n_problem it)) in *.
  split; [|split; [|split]].
  - destruct i1; [cbn; auto|]. destruct i0; cbn; auto.
  - intros r Hr. destruct i1, i0; cbn [In] in Hr;
      try specialize (A1 eq_refl); try specialize (A2 eq_refl); try specialize (A3 eq_refl); try specialize (B1 eq_refl); try specialize (B2 eq_refl);
      destruct Hr as [<-|[<-|[<-|[]]]]; try assumption; try apply better_find_irrefl; eapply better_find_trans; eassumption.
  - exists n0, n1. unfold make_node in En0, En1.
    destruct (if b_success r0 then back r0 else Some 0) as [v0|]; cbn [bind] in En0; [|discriminate].
    destruct (if b_success r1 then back r1 else Some 0) as [v1|]; cbn [bind] in En1; [|discriminate].
    injection En0 as <-. injection En1 as <-. cbn [n_problem n_remaining]. repeat (split; [reflexivity|]).
    rewrite emplace_perm, emplace_perm. apply perm_swap.
  - intros Ho. destruct (split_type _ _ _ _ _ Es) as [T0 T1].
    assert (P0 : n_problem n0 = p0) by (unfold make_node in En0; destruct (if b_success r0 then back r0 else Some 0); cbn [bind] in En0; [injection En0 as <-; reflexivity|discriminate]).
    assert (P1 : n_problem n1 = p1) by (unfold make_node in En1; destruct (if b_success r1 then back r1 else Some 0); cbn [bind] in En1; [injection En1 as <-; reflexivity|discriminate]).
    apply emplace_order; [unfold t; congruence|]. apply emplace_order; [unfold t; congruence|exact Ho].
Qed.
