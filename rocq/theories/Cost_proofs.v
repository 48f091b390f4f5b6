(** Proofs about the costs. *)
From Coq Require Import QArith Qabs Qround Lqa Permutation Sorted.
From Verif Require Import Base Problem_model Problem_spec Params_model Merged_spec Cost_model Cost_spec.
Open Scope Z_scope.

(** ** Linear part *)
Lemma add_linear_ok l n : (forall e, In e l -> (o_var e < n)%nat) -> forall c, length c = n ->
  exists c', add_linear l n c = Some c' /\ length c' = n /\
    forall v q, nth_error c v = Some q -> exists q', nth_error c' v = Some q' /\
      (q' == q + inject_Z (lin_value (fun u => Nat.eqb u v) l))%Q.
Proof.
  induction l as [|e l IH]; intros Hl c Hc; cbn [add_linear].
  - exists c. split; [reflexivity|]. split; [exact Hc|]. intros v q Hv. exists q. split; [exact Hv|]. cbn. ring.
  - assert (He : (o_var e < n)%nat) by (apply Hl; left; reflexivity). destruct (Nat.ltb_spec (o_var e) n); [|lia].
    destruct (list_modify_some c (o_var e) (fun q => q + inject_Z (o_factor e))%Q) as (a & c1 & Ha & _ & E); [lia|].
    rewrite E. cbn [bind]. destruct (IH ltac:(intros; apply Hl; right; assumption) c1) as (c' & E' & L' & H').
    + rewrite (list_modify_length _ _ _ _ E). exact Hc.
    + exists c'. split; [exact E'|]. split; [exact L'|]. intros v q Hv.
      pose proof (list_modify_nth _ _ _ _ v E) as Hn. cbn [lin_value].
      destruct (Nat.eqb_spec (o_var e) v) as [Ev|Ev].
      * subst v. rewrite Nat.eqb_refl in Hn. rewrite Hv in Hn. cbn in Hn.
        destruct (H' _ _ Hn) as (q' & Hq' & Eq). exists q'. split; [exact Hq'|]. rewrite Eq. cbn [bz].
        rewrite inject_Z_plus, Z.mul_1_r. ring.
      * rewrite (proj2 (Nat.eqb_neq v (o_var e))) in Hn by congruence. rewrite Hv in Hn.
        destruct (H' _ _ Hn) as (q' & Hq' & Eq). exists q'. split; [exact Hq'|]. rewrite Eq. cbn [bz].
        rewrite Z.mul_0_r, Z.add_0_l. reflexivity.
Qed.
Lemma add_linear_dom l n : forall c c', length c = n -> add_linear l n c = Some c' -> forall e, In e l -> (o_var e < n)%nat.
Proof.
  induction l as [|d l IH]; intros c c' Hc H e; [intros []|]. cbn [add_linear] in H. destruct (Nat.ltb_spec (o_var d) n); [|discriminate].
  destruct (list_modify c (o_var d) _) as [c1|] eqn:E; [|discriminate]. cbn [bind] in H. intros [<-|He]; [assumption|].
  apply (IH c1 c'); auto. rewrite (list_modify_length _ _ _ _ E). exact Hc.
Qed.

(** ** Quadratic part *)
Lemma count_quads v l : count_of v l = length (quads_of v l).
Proof.
  induction l as [|e l IH]; [reflexivity|]. cbn. rewrite (Nat.eqb_sym v (q_vara e)), (Nat.eqb_sym v (q_varb e)), IH.
  destruct (Nat.eqb (q_vara e) v); cbn; [reflexivity|]. destruct (Nat.eqb (q_varb e) v); reflexivity.
Qed.
Lemma indices_nth l : forall k v last i, (i <= k)%nat ->
  nth_error (indices_from k v last l) i = Some (last + length (flat_map (fun u => quads_of u l) (seq v i)))%nat.
Proof.
  induction k as [|k IH]; intros v last i Hi.
  - assert (i = 0%nat) by lia. subst i. cbn. f_equal. lia.
  - destruct i as [|i]; [cbn; f_equal; lia|]. cbn [indices_from nth_error]. rewrite IH by lia. cbn [seq flat_map].
    rewrite app_length, count_quads. f_equal. lia.
Qed.
Lemma slice_mid {A} (a b c : list A) : slice (a ++ b ++ c) (length a) (length a + length b) = b.
Proof.
  unfold slice. rewrite skipn_app, skipn_all, Nat.sub_diag. cbn. replace (length a + length b - length a)%nat with (length b) by lia.
  rewrite firstn_app, firstn_all, Nat.sub_diag. cbn. apply app_nil_r.
Qed.
Lemma flat_map_quads l n v : (v < n)%nat ->
  flat_map (fun u => quads_of u l) (seq 0 n) =
  flat_map (fun u => quads_of u l) (seq 0 v) ++ quads_of v l ++ flat_map (fun u => quads_of u l) (seq (S v) (n - S v)).
Proof.
  intros Hv. replace n with (v + S (n - S v))%nat at 1 by lia. rewrite seq_app. rewrite flat_map_app. reflexivity.
Qed.
(** The whole number of stored elements: at most two for each. *)
Lemma quads_total l : forall n, (length (flat_map (fun u => quads_of u l) (seq 0 n)) <= 2 * length l)%nat.
Proof.
  intros n. induction l as [|e l IH].
  - cbn [quads_of length]. induction (seq 0 n); cbn [flat_map app length] in *; lia.
  - cbn [length]. enough (length (flat_map (fun u => quads_of u (e :: l)) (seq 0 n)) <= 2 + length (flat_map (fun u => quads_of u l) (seq 0 n)))%nat by lia.
    clear IH. assert (H : forall s m, (length (flat_map (fun u => quads_of u (e :: l)) (seq s m)) <=
      (if (s <=? q_vara e)%nat then 1 else 0) + (if (s <=? q_varb e)%nat then 1 else 0) + length (flat_map (fun u => quads_of u l) (seq s m)))%nat).
    { intros s m. revert s. induction m as [|m IHm]; intros s; [cbn; lia|]. cbn [seq flat_map]. rewrite !app_length. specialize (IHm (S s)).
      set (A := length (flat_map (fun u => quads_of u (e :: l)) (seq (S s) m))) in *. cbn [quads_of]. destruct (Nat.leb_spec s (q_vara e)), (Nat.leb_spec s (q_varb e)), (Nat.leb_spec (S s) (q_vara e)), (Nat.leb_spec (S s) (q_varb e)),
        (Nat.eqb_spec (q_vara e) s), (Nat.eqb_spec (q_varb e) s); cbn [length]; lia. }
    specialize (H 0%nat n). cbn [Nat.leb plus] in H. exact H.
Qed.
Lemma sum_quads_ok x l : (forall d, In d l -> (qd_id d < length x)%nat) -> forall r,
  exists q, sum_quads x l r = Some q /\ (q == r + fold_right (fun d s => (if of_list x (qd_id d) then qd_factor d else 0) + s) 0 l)%Q.
Proof.
  induction l as [|d l IH]; intros Hl r; cbn [sum_quads fold_right].
  - exists r. split; [reflexivity|]. ring.
  - destruct (nth_error x (qd_id d)) as [b|] eqn:E.
    + cbn [bind]. unfold of_list at 1. rewrite (nth_error_nth _ _ _ E).
      destruct (IH ltac:(intros; apply Hl; right; assumption) (if b then r + qd_factor d else r)%Q) as (q & Eq & Hq).
      exists q. split; [exact Eq|]. rewrite Hq. destruct b; ring.
    + apply nth_error_None in E. specialize (Hl d (or_introl eq_refl)). lia.
Qed.
Lemma sum_all_ok l : forall r, (sum_all l r == r + fold_right (fun d s => qd_factor d + s) 0 l)%Q.
Proof. induction l as [|d l IH]; intros r; cbn [sum_all fold_right]; [ring|]. rewrite IH. ring. Qed.
Lemma quads_of_in v l d n : (forall e, In e l -> (q_vara e < n /\ q_varb e < n)%nat) -> In d (quads_of v l) -> (qd_id d < n)%nat.
Proof.
  induction l as [|e l IH]; intros Hl; [intros []|]. cbn. destruct (Hl e (or_introl eq_refl)). specialize (IH ltac:(intros; apply Hl; right; assumption)).
  destruct (Nat.eqb (q_vara e) v); [intros [<-|H']; [cbn; assumption|auto]|].
  destruct (Nat.eqb (q_varb e) v); [intros [<-|H']; [cbn; assumption|auto]|]. auto.
Qed.

(** The costs of a variable in the tables. *)
Lemma make_costs_some o n : objective_in n o -> exists c, make_costs o n = Some c.
Proof.
  intros [H1 H2]. unfold make_costs, linear_elements. destruct (add_linear_ok (o_elements o) n H1 (repeat 0%Q n)) as (c & E & L & _); [apply repeat_length|].
  rewrite E. cbn [bind]. assert (Hq : forallb (quad_in n) (o_qelements o) = true).
  { apply forallb_forall. intros e He. destruct (H2 e He). unfold quad_in. apply andb_true_iff. split; apply Nat.ltb_lt; assumption. }
  rewrite Hq. cbn [orb]. pose proof (quads_total (o_qelements o) n). destruct (Nat.leb_spec (length (flat_map (fun v => quads_of v (o_qelements o)) (seq 0 n))) (2 * length (o_qelements o) + 1)); [|lia].
  eexists. reflexivity.
Qed.
Lemma make_costs_dom o n c : (0 < n)%nat -> make_costs o n = Some c -> objective_in n o.
Proof.
  intros Hn. unfold make_costs, linear_elements. destruct (add_linear (o_elements o) n (repeat 0%Q n)) as [l|] eqn:E; [|discriminate]. cbn [bind].
  destruct (Nat.eqb_spec n 0); [lia|]. rewrite orb_false_r. destruct (forallb (quad_in n) (o_qelements o)) eqn:Eq; [|discriminate]. intros _.
  split; [apply (add_linear_dom _ _ _ _ (repeat_length _ _) E)|]. intros e He. rewrite forallb_forall in Eq. specialize (Eq e He).
  unfold quad_in in Eq. apply andb_true_iff in Eq. destruct Eq as [A B]. apply Nat.ltb_lt in A, B. auto.
Qed.
Lemma make_costs_at o n c v : objective_in n o -> (v < n)%nat -> make_costs o n = Some c ->
  length (co_linear c) = n /\
  exists q, nth_error (co_linear c) v = Some q /\ (q == inject_Z (linear_coef o v))%Q /\
  exists first last, nth_error (co_indices c) v = Some first /\ nth_error (co_indices c) (S v) = Some last /\
    (first <= last <= length (co_quads c))%nat /\ slice (co_quads c) first last = quads_of v (o_qelements o).
Proof.
  intros [H1 H2] Hv. unfold make_costs, linear_elements. destruct (add_linear_ok (o_elements o) n H1 (repeat 0%Q n)) as (l & E & L & Hl); [apply repeat_length|].
  rewrite E. cbn [bind]. destruct (_ || _); [|discriminate]. destruct (Nat.leb _ _); [|discriminate]. intros H. inversion H; subst c; clear H.
  cbn [co_linear co_quads co_indices]. split; [exact L|]. destruct (Hl v 0%Q) as (q & Hq & Eq); [rewrite nth_error_repeat; destruct (Nat.ltb_spec v n); [reflexivity|lia]|].
  exists q. split; [exact Hq|]. split; [rewrite Eq; unfold linear_coef; ring|].
  exists (length (flat_map (fun u => quads_of u (o_qelements o)) (seq 0 v))), (length (flat_map (fun u => quads_of u (o_qelements o)) (seq 0 v)) + length (quads_of v (o_qelements o)))%nat.
  rewrite !indices_nth by lia. cbn [plus]. split; [reflexivity|]. split.
  { f_equal. rewrite seq_S, flat_map_app, app_length. cbn [flat_map plus]. rewrite app_nil_r. reflexivity. }
  rewrite (flat_map_quads (o_qelements o) n v Hv). split; [rewrite !app_length; lia|]. apply slice_mid.
Qed.

(** ** Marginal costs *)
Lemma lin_marginal x v l : lin_value (set_var x v true) l - lin_value (set_var x v false) l = lin_value (fun u => Nat.eqb u v) l.
Proof.
  induction l as [|e l IH]; [reflexivity|]. cbn [lin_value]. rewrite <- IH. unfold set_var. destruct (Nat.eqb (o_var e) v); cbn [bz]; lia.
Qed.
Lemma quad_marginal x v l : (forall e, In e l -> q_vara e = v -> q_varb e = v -> x v = true) ->
  (inject_Z (quad_value (set_var x v true) l - quad_value (set_var x v false) l) ==
   fold_right (fun d s => (if x (qd_id d) then qd_factor d else 0) + s) 0 (quads_of v l))%Q.
Proof.
  induction l as [|e l IH]; intros Hl; [reflexivity|]. cbn [quad_value quads_of].
  specialize (IH ltac:(intros; eapply Hl; eauto; right; assumption)). specialize (Hl e (or_introl eq_refl)). unfold set_var in *.
  destruct (Nat.eqb_spec (q_vara e) v) as [Ea|Ea], (Nat.eqb_spec (q_varb e) v) as [Eb|Eb]; cbn [fold_right qd_id qd_factor]; rewrite <- ?IH.
  - rewrite Eb, (Hl Ea Eb). cbn [bz]. rewrite <- inject_Z_plus. apply inject_Z_injective. lia.
  - destruct (x (q_varb e)); cbn [bz]; [rewrite <- inject_Z_plus|rewrite Qplus_0_l]; apply inject_Z_injective; lia.
  - destruct (x (q_vara e)); cbn [bz]; [rewrite <- inject_Z_plus|rewrite Qplus_0_l]; apply inject_Z_injective; lia.
  - apply inject_Z_injective; lia.
Qed.
Lemma cost_at_eq o n c v x : objective_in n o -> (v < n)%nat -> length x = n -> make_costs o n = Some c ->
  exists q, cost_at c v x = Some q /\
  (q == inject_Z (linear_coef o v) + fold_right (fun d s => (if of_list x (qd_id d) then qd_factor d else 0) + s) 0 (quads_of v (o_qelements o)))%Q.
Proof.
  intros Ho Hv Hx E. destruct (make_costs_at o n c v Ho Hv E) as (_ & q & Hq & Eq & first & last & Hf & Hla & Hle & Hs).
  unfold cost_at. rewrite Hq, Hf, Hla. cbn [bind]. destruct (Nat.leb_spec first last); [|lia]. destruct (Nat.leb_spec last (length (co_quads c))); [|lia].
  cbn [andb]. rewrite Hs. destruct (sum_quads_ok x (quads_of v (o_qelements o))) with (r := q) as (r & Er & Hr).
  - intros d Hd. rewrite Hx. destruct Ho as [_ Ho]. eapply quads_of_in; eassumption.
  - exists r. split; [exact Er|]. rewrite Hr, Eq. reflexivity.
Qed.
Lemma marginal_ok o n v x : objective_in n o -> (v < n)%nat -> length x = n ->
  (forall e, In e (o_qelements o) -> q_vara e = v -> q_varb e = v -> of_list x v = true) ->
  exists c q, make_costs o n = Some c /\ cost_at c v x = Some q /\ (q == inject_Z (marginal o (of_list x) v))%Q.
Proof.
  intros Ho Hv Hx Hs. destruct (make_costs_some o n Ho) as (c & E). destruct (cost_at_eq o n c v x Ho Hv Hx E) as (q & Eq & Hq).
  exists c, q. split; [exact E|]. split; [exact Eq|]. rewrite Hq, <- quad_marginal by exact Hs. unfold marginal, objective_value, linear_coef.
  rewrite <- (lin_marginal (of_list x) v), <- inject_Z_plus. apply inject_Z_injective. lia.
Qed.
Lemma cost_of_ok o n v : objective_in n o -> (v < n)%nat ->
  exists c q, make_costs o n = Some c /\ cost_of c v = Some q /\ (q == inject_Z (marginal o (fun _ => true) v))%Q.
Proof.
  intros Ho Hv. destruct (make_costs_some o n Ho) as (c & E). exists c. destruct (make_costs_at o n c v Ho Hv E) as (_ & q & Hq & Eq & first & last & Hf & Hla & Hle & Hs).
  unfold cost_of. rewrite Hq, Hf, Hla. cbn [bind]. destruct (Nat.leb_spec first last); [|lia]. destruct (Nat.leb_spec last (length (co_quads c))); [|lia].
  cbn [andb]. eexists. split; [exact E|]. split; [reflexivity|]. rewrite sum_all_ok, Hs, Eq.
  pose proof (quad_marginal (fun _ => true) v (o_qelements o) ltac:(reflexivity)) as Hm. cbn beta iota in Hm. rewrite <- Hm.
  unfold marginal, objective_value, linear_coef.
  rewrite <- (lin_marginal (fun _ => true) v), <- inject_Z_plus. apply inject_Z_injective. lia.
Qed.

(** ** Division by a positive number *)
Lemma slice_map {A B} (f : A -> B) l a b : slice (map f l) a b = map f (slice l a b).
Proof. unfold slice. rewrite skipn_map, firstn_map. reflexivity. Qed.
Lemma sum_quads_div x div l : ~ (div == 0)%Q -> forall r r', (r' == r / div)%Q ->
  match sum_quads x l r, sum_quads x (map (fun d => mk_quad (qd_factor d / div) (qd_id d)) l) r' with
  | Some q, Some q' => (q' == q / div)%Q
  | None, None => True
  | _, _ => False
  end.
Proof.
  intros Hd. induction l as [|d l IH]; intros r r' Hr; cbn [sum_quads map qd_id qd_factor]; [exact Hr|].
  destruct (nth_error x (qd_id d)) as [b|]; cbn [bind]; [|exact I]. apply IH. destruct b; [|exact Hr]. rewrite Hr. field. exact Hd.
Qed.
Definition scaled (n : nat) (c c' : costs) : Prop :=
  exists k, (0 < k)%Q /\ forall x v, length x = n -> (v < n)%nat ->
    match cost_at c v x, cost_at c' v x with Some q, Some q' => (q' == q * k)%Q | None, None => True | _, _ => False end.
Lemma scaled_refl n c : scaled n c c.
Proof.
  exists 1%Q. split; [reflexivity|]. intros x v _ _. destruct (cost_at c v x); [ring|exact I].
Qed.
Lemma divide_scaled n c div : (0 <= div)%Q -> scaled n c (divide c div).
Proof.
  intros Hd. unfold divide, is_normal. destruct (Qeq_bool div 0) eqn:E; [apply scaled_refl|]. cbn [negb].
  assert (Hn : ~ (div == 0)%Q) by (intros H; apply Qeq_bool_iff in H; congruence).
  exists (/ div)%Q. split; [apply Qinv_lt_0_compat; lra|]. intros x v _ _. unfold cost_at. cbn [co_linear co_quads co_indices].
  rewrite nth_error_map. destruct (nth_error (co_linear c) v) as [q|]; cbn [option_map bind]; [|exact I].
  destruct (nth_error (co_indices c) v) as [a|]; cbn [bind]; [|exact I]. destruct (nth_error (co_indices c) (S v)) as [b|]; cbn [bind]; [|exact I].
  rewrite map_length. destruct (_ && _); [|exact I]. rewrite slice_map. apply (sum_quads_div x div (slice (co_quads c) a b) Hn q). reflexivity.
Qed.
Lemma scaled_keeps n c c' : scaled n c c' -> readable n c -> keeps_order n c c' /\ keeps_ties n c c' /\ keeps_sign n c c' /\ readable n c'.
Proof.
  intros (k & Hk & H) Hr. repeat split.
  - intros x u v a b a' b' Hx Hu Hv Ea Eb Ea' Eb' Hlt. pose proof (H x u Hx Hu) as H1. pose proof (H x v Hx Hv) as H2. rewrite Ea, Ea' in H1. rewrite Eb, Eb' in H2.
    rewrite H1, H2. apply Qmult_lt_r; assumption.
  - intros x u v a b a' b' Hx Hu Hv Ea Eb Ea' Eb' Hlt. pose proof (H x u Hx Hu) as H1. pose proof (H x v Hx Hv) as H2. rewrite Ea, Ea' in H1. rewrite Eb, Eb' in H2.
    rewrite H1, H2, Hlt. reflexivity.
  - intros Ha. pose proof (H x v H0 H1) as H4. rewrite H2, H3 in H4. rewrite H4. setoid_replace 0%Q with (0 * k)%Q by ring. apply Qmult_lt_r; assumption.
  - intros Ha. pose proof (H x v H0 H1) as H4. rewrite H2, H3 in H4. rewrite H4. setoid_replace 0%Q with (0 * k)%Q by ring. apply Qmult_lt_r; assumption.
  - intros Ha. pose proof (H x v H0 H1) as H4. rewrite H2, H3 in H4. rewrite H4, Ha. ring.
  - intros x v Hx Hv. destruct (Hr x v Hx Hv) as (q & E). pose proof (H x v Hx Hv) as H4. rewrite E in H4. destruct (cost_at c' v x); [eauto|contradiction].
Qed.
Lemma sum_abs_nonneg l : forall s, (0 <= s)%Q -> (0 <= fold_left (fun s q => s + Qabs q) l s)%Q.
Proof. induction l as [|q l IH]; intros s Hs; cbn; [exact Hs|]. apply IH. pose proof (Qabs_nonneg q). lra. Qed.
Lemma sum_sq_nonneg l : forall s, (0 <= s)%Q -> (0 <= fold_left (fun s q => s + q * q) l s)%Q.
Proof.
  induction l as [|q l IH]; intros s Hs; cbn; [exact Hs|]. apply IH. assert (0 <= q * q)%Q; [|lra].
  destruct q as [a b]. unfold Qle, Qmult. cbn. nia.
Qed.
Lemma qmax_ge l : forall a, (a <= fold_left qmax l a)%Q /\ (forall q, In q l -> (q <= fold_left qmax l a)%Q).
Proof.
  induction l as [|b l IH]; intros a; cbn [fold_left]; [split; [apply Qle_refl|intros q []]|].
  destruct (IH (qmax a b)) as [H1 H2]. assert (a <= qmax a b /\ b <= qmax a b)%Q.
  { unfold qmax. destruct (Qle_bool b a) eqn:E; [apply Qle_bool_iff in E; lra|]. assert (~ (b <= a)%Q) by (intros H; apply Qle_bool_iff in H; congruence). lra. }
  split; [lra|]. intros q [<-|Hq]; [lra|auto].
Qed.
Lemma qmax_in l : forall a, fold_left qmax l a = a \/ In (fold_left qmax l a) l.
Proof.
  induction l as [|b l IH]; intros a; cbn [fold_left]; [left; reflexivity|]. destruct (IH (qmax a b)) as [H|H]; [|right; right; exact H].
  rewrite H. unfold qmax. destruct (Qle_bool b a); [left; reflexivity|right; left; reflexivity].
Qed.

Lemma make_costs_readable o n c : (0 < n)%nat -> make_costs o n = Some c -> readable n c.
Proof.
  intros Hn E x v Hx Hv. destruct (cost_at_eq o n c v x (make_costs_dom o n c Hn E) Hv Hx E) as (q & Eq & _). eauto.
Qed.
Lemma loo_norm_some c : co_linear c <> [] -> exists div, loo_norm c = Some (divide c div) /\
  (forall q, In q (factors c) -> (q <= div)%Q).
Proof.
  intros Hc. unfold loo_norm, factors. destruct (co_linear c) as [|a l] eqn:E; [contradiction|]. cbn [max_element bind].
  eexists. split; [reflexivity|]. destruct (qmax_ge l a) as [H1 H2]. destruct (qmax_ge (map qd_factor (co_quads c)) (fold_left qmax l a)) as [H3 H4].
  intros q Hq. apply in_app_or in Hq. destruct Hq as [[<-|Hq]|Hq]; [lra| |auto]. specialize (H2 q Hq). lra.
Qed.
Lemma loo_norm_scaled n c : (0 < length (co_linear c))%nat -> (exists q, In q (factors c) /\ (0 <= q)%Q) ->
  exists c', loo_norm c = Some c' /\ scaled n c c'.
Proof.
  intros Hn (q & Hq & Hq0). destruct (loo_norm_some c) as (div & E & H); [intros E; rewrite E in Hn; cbn in Hn; lia|].
  exists (divide c div). split; [exact E|]. apply divide_scaled. specialize (H q Hq). lra.
Qed.
Lemma make_costs_linear o n c : make_costs o n = Some c -> length (co_linear c) = n.
Proof.
  unfold make_costs, linear_elements. destruct (add_linear (o_elements o) n (repeat 0%Q n)) as [l|] eqn:E; [|discriminate]. cbn [bind].
  destruct (_ || _); [|discriminate]. destruct (Nat.leb _ _); [|discriminate]. intros H. inversion H; subst c. cbn.
  destruct (add_linear_ok (o_elements o) n (add_linear_dom _ _ _ _ (repeat_length _ _) E) (repeat 0%Q n) (repeat_length _ _)) as (l' & E' & L & _). congruence.
Qed.
Lemma has_nonneg_factor o n c : (0 < n)%nat -> make_costs o n = Some c -> has_nonneg n o -> exists q, In q (factors c) /\ (0 <= q)%Q.
Proof.
  intros Hn E H. pose proof (make_costs_dom o n c Hn E) as Ho. unfold factors. destruct H as [(v & Hv & H)|(e & He & H)].
  - destruct (make_costs_at o n c v Ho Hv E) as (_ & q & Hq & Eq & _). exists q. split; [apply in_or_app; left; eapply nth_error_In; eassumption|].
    rewrite Eq. unfold Qle. cbn. lia.
  - exists (inject_Z (q_factor e)). split; [|unfold Qle; cbn; lia]. apply in_or_app. right.
    revert E. unfold make_costs. destruct (linear_elements o n); [|discriminate]. cbn [bind]. destruct (_ || _); [|discriminate]. destruct (Nat.leb _ _); [|discriminate].
    intros E. inversion E; subst c; clear E. cbn [co_quads]. apply in_map_iff. exists (mk_quad (inject_Z (q_factor e)) (q_varb e)). split; [reflexivity|].
    apply in_flat_map. exists (q_vara e). split; [apply in_seq; destruct Ho as [_ Ho]; destruct (Ho e He); lia|].
    revert He. generalize (o_qelements o) as ql. clear. induction ql as [|d ql IH]; intros He; [destruct He|]. cbn [quads_of]. destruct He as [->|He].
    + rewrite Nat.eqb_refl. left. reflexivity.
    + specialize (IH He). destruct (Nat.eqb _ _); [right; exact IH|]. destruct (Nat.eqb _ _); [right; exact IH|exact IH].
Qed.

(** ** The random norm *)
Lemma qlt_iff a b : qlt a b = true <-> (a < b)%Q.
Proof.
  unfold qlt. destruct (Qle_bool b a) eqn:E; cbn; [apply Qle_bool_iff in E; split; [discriminate|lra]|].
  assert (~ (b <= a)%Q) by (intros H; apply Qle_bool_iff in H; congruence). split; [lra|reflexivity].
Qed.
Lemma qlt_false a b : qlt a b = false <-> (b <= a)%Q.
Proof.
  unfold qlt. destruct (Qle_bool b a) eqn:E; cbn; [apply Qle_bool_iff in E; split; [intros; exact E|reflexivity]|].
  assert (~ (b <= a)%Q) by (intros H; apply Qle_bool_iff in H; congruence). split; [discriminate|contradiction].
Qed.
Lemma linearize_above f v d r : (f < v)%Q -> (0 < d)%nat -> (0 < r)%nat ->
  exists hi, linearize 0 f (inject_Z (Z.of_nat d)) v (inject_Z (Z.of_nat (d + r))) = Some hi /\ (v < hi)%Q.
Proof.
  intros Hf Hd Hr. unfold linearize. assert (H0 : (0 < inject_Z (Z.of_nat d))%Q) by (unfold Qlt; cbn; lia).
  destruct (Qeq_bool (0 - inject_Z (Z.of_nat d)) 0) eqn:E; [apply Qeq_bool_iff in E; lra|].
  eexists. split; [reflexivity|]. set (D := inject_Z (Z.of_nat d)) in *. eapply Qlt_le_trans; [|apply Qle_ceiling].
  rewrite Nat2Z.inj_add, inject_Z_plus. fold D. set (R := inject_Z (Z.of_nat r)). assert (HR : (0 < R)%Q) by (unfold R, Qlt; cbn; lia).
  assert (Hm : ((f - v) / (0 - D) == (v - f) / D)%Q) by (field; lra). rewrite Hm.
  assert (Hp : (0 < (v - f) / D)%Q) by (apply Qlt_shift_div_l; lra).
  set (m := ((v - f) / D)%Q) in *. setoid_replace (m * (D + R) + (v - m * D))%Q with (v + m * R)%Q by ring.
  assert (0 < m * R)%Q by (setoid_replace 0%Q with (0 * R)%Q by ring; apply Qmult_lt_r; assumption). lra.
Qed.

Section RandomProofs.
Context {G : Type} (std_sort : forall A : Type, (A -> A -> bool) -> list A -> list A)
        (uniform : G -> Q -> Q -> Q * G).
Hypothesis Huni : draws_between uniform.
Notation trip := ((Q * nat) * (Q * nat))%type.
Definition raised (T : list trip) : Prop :=
  (forall t, In t T -> snd (fst t) = snd (snd t) /\ (fst (fst t) <= fst (snd t))%Q) /\
  (forall t t', In t T -> In t' T -> (fst (fst t) < fst (fst t'))%Q -> (fst (snd t) < fst (fst t'))%Q).
Lemma raised_app T T' : raised T -> raised T' ->
  (forall t t', In t T -> In t' T' -> (fst (snd t) < fst (fst t'))%Q) -> raised (T ++ T').
Proof.
  intros [A1 A2] [B1 B2] H. split.
  - intros t Ht. apply in_app_or in Ht. destruct Ht; auto.
  - intros t t' Ht Ht' Hlt. apply in_app_or in Ht, Ht'. destruct Ht as [Ht|Ht], Ht' as [Ht'|Ht']; auto.
    exfalso. specialize (H t' t Ht' Ht). destruct (A1 t' Ht'). lra.
Qed.
Lemma draws_ok lo hi l : (lo < hi)%Q -> forall g, exists T,
  map fst T = l /\ map snd T = fst (draws uniform lo hi l g) /\
  forall t, In t T -> snd (fst t) = snd (snd t) /\ (lo <= fst (snd t))%Q /\ (fst (snd t) < hi)%Q.
Proof.
  intros Hlt. induction l as [|p l IH]; intros g; cbn [draws].
  - exists []. split; [reflexivity|]. split; [reflexivity|]. intros t [].
  - destruct (Huni g lo hi Hlt) as [H1 H2]. destruct (uniform g lo hi) as [q g1]. cbn in H1, H2. destruct (IH g1) as (T & E1 & E2 & HT).
    destruct (draws uniform lo hi l g1) as [r g2]. exists ((p, (q, snd p)) :: T). cbn in *. rewrite E1, E2. split; [reflexivity|]. split; [reflexivity|].
    intros t [<-|Ht]; [cbn; auto|auto].
Qed.
Lemma epsilon_ok v hi run g : (v < hi)%Q -> (forall p, In p run -> (fst p == v)%Q) ->
  exists T g', epsilon_unique uniform v hi run g = Some (map snd T, g') /\ map fst T = run /\ raised T /\
    forall t, In t T -> (fst (snd t) < hi)%Q.
Proof.
  intros Hlt Hrun. unfold epsilon_unique. rewrite (proj2 (qlt_iff v hi) Hlt). destruct (draws_ok v hi run Hlt g) as (T & E1 & E2 & HT).
  exists T, (snd (draws uniform v hi run g)). rewrite E2. split; [f_equal; destruct (draws uniform v hi run g); reflexivity|]. split; [exact E1|].
  assert (Hv : forall t, In t T -> (fst (fst t) == v)%Q) by (intros t Ht; apply Hrun; rewrite <- E1; apply in_map; exact Ht).
  split; [|intros t Ht; apply HT; exact Ht]. split.
  - intros t Ht. destruct (HT t Ht) as (A & B & C). split; [exact A|]. rewrite (Hv t Ht). exact B.
  - intros t t' Ht Ht' Hl. rewrite (Hv t Ht), (Hv t' Ht') in Hl. lra.
Qed.
Lemma diag_ok v run : (forall p, In p run -> (fst p == v)%Q) -> forall hi, (v < hi)%Q ->
  let T := map (fun p => (p, p)) run in
  map fst T = run /\ map snd T = run /\ raised T /\ forall t, In t T -> (fst (snd t) < hi)%Q.
Proof.
  intros H hi Hh T. unfold T. rewrite !map_map. cbn. rewrite map_id. split; [reflexivity|]. split; [reflexivity|]. split; [split|].
  - intros t Ht. apply in_map_iff in Ht. destruct Ht as (p & <- & Hp). cbn. split; [reflexivity|apply Qle_refl].
  - intros t t' Ht Ht'. apply in_map_iff in Ht, Ht'. destruct Ht as (p & <- & Hp), Ht' as (p' & <- & Hp'). cbn. auto.
  - intros t Ht. apply in_map_iff in Ht. destruct Ht as (p & <- & Hp). cbn. rewrite (H p Hp). exact Hh.
Qed.
Lemma spread_ok rest : forall T run v g,
  raised T -> (forall t, In t T -> (fst (snd t) < v)%Q) -> run <> [] -> (forall p, In p run -> (fst p == v)%Q) ->
  StronglySorted (fun a b : Q * nat => (fst a <= fst b)%Q) rest -> (forall p, In p rest -> (v <= fst p)%Q) ->
  exists T' g', spread uniform (map snd T) run v rest g = Some (map snd T', g') /\ map fst T' = map fst T ++ run ++ rest /\ raised T'.
Proof.
  induction rest as [|p rest IH]; intros T run v g HT Hv Hne Hrun Hs Hge; cbn [spread].
  - assert (Happ : forall T2, raised T2 -> map fst T2 = run -> raised (T ++ T2)).
    { intros T2 H2 E2. apply raised_app; auto. intros t t' Ht Ht'. rewrite (Hrun (fst t')); [auto|]. rewrite <- E2. apply in_map. exact Ht'. }
    rewrite app_nil_r. destruct (long_run run) eqn:El.
    + destruct T as [|t T]; cbn [map].
      * destruct (epsilon_ok v (v + 1) run g ltac:(lra) Hrun) as (T2 & g2 & E & E1 & H2 & _). exists T2, g2. rewrite E. auto.
      * destruct (linearize_above (fst (snd t)) v (length (map snd (t :: T))) (length run)) as (hi & Eh & Hh).
        { apply Hv. left. reflexivity. } { cbn; lia. } { destruct run; [contradiction|cbn; lia]. }
        cbn [map] in Eh. rewrite Eh. cbn [bind]. destruct (epsilon_ok v hi run g Hh Hrun) as (T2 & g2 & E & E1 & H2 & _). rewrite E. cbn [bind].
        exists ((t :: T) ++ T2), g2. rewrite !map_app, E1. cbn [map app]. split; [reflexivity|]. split; [reflexivity|]. apply Happ; assumption.
    + destruct (diag_ok v run Hrun (v + 1) ltac:(lra)) as (E1 & E2 & H2 & _). exists (T ++ map (fun p => (p, p)) run), g.
      rewrite !map_app, E1, E2. split; [reflexivity|]. split; [reflexivity|]. apply Happ; assumption.
  - inversion Hs as [|? ? Hs' Hf]; subst. assert (Hge' : forall q, In q rest -> (fst p <= fst q)%Q) by (intros q Hq; rewrite Forall_forall in Hf; apply Hf; exact Hq).
    destruct (Qeq_bool (fst p) v) eqn:Ep.
    + apply Qeq_bool_iff in Ep. destruct (IH T (run ++ [p]) v g HT Hv) as (T' & g' & E & E1 & H').
      * intros H. destruct run; discriminate.
      * intros q Hq. apply in_app_or in Hq. destruct Hq as [Hq|[<-|[]]]; auto.
      * exact Hs'.
      * intros q Hq. apply Hge. right. exact Hq.
      * exists T', g'. split; [exact E|]. split; [|exact H']. rewrite E1. rewrite <- app_assoc. reflexivity.
    + assert (Hlt : (v < fst p)%Q). { specialize (Hge p (or_introl eq_refl)). assert (~ (fst p == v)%Q) by (intros H; apply Qeq_bool_iff in H; congruence). lra. }
      assert (Hstep : exists T2 g2, (if long_run run then epsilon_unique uniform v (fst p) run g else Some (run, g)) = Some (map snd T2, g2) /\ map fst T2 = run /\ raised T2 /\ forall t, In t T2 -> (fst (snd t) < fst p)%Q).
      { destruct (long_run run); [apply epsilon_ok; assumption|]. destruct (diag_ok v run Hrun (fst p) Hlt) as (E1 & E2 & H2 & H3).
        exists (map (fun p => (p, p)) run), g. rewrite E2. auto. }
      destruct Hstep as (T2 & g2 & E2 & E1 & H2 & H3). rewrite E2. cbn [bind]. rewrite <- map_app.
      destruct (IH (T ++ T2) [p] (fst p) g2) as (T' & g' & E & E' & H').
      * apply raised_app; auto. intros t t' Ht Ht'. rewrite (Hrun (fst t')); [auto|]. rewrite <- E1. apply in_map. exact Ht'.
      * intros t Ht. apply in_app_or in Ht. destruct Ht as [Ht|Ht]; [|auto]. specialize (Hv t Ht). lra.
      * discriminate.
      * intros q [<-|[]]. reflexivity.
      * exact Hs'.
      * exact Hge'.
      * exists T', g'. split; [exact E|]. split; [|exact H']. rewrite E', map_app, E1, <- app_assoc. reflexivity.
Qed.

Hypothesis Hperm : permutes std_sort.
Hypothesis Hsort : sorts std_sort.
Lemma sorted_unique : forall l l' : list nat, StronglySorted le l -> StronglySorted le l' -> Permutation l l' -> l = l'.
Proof.
  induction l as [|a l IH]; intros l' Hl Hl' Hp; [apply Permutation_nil in Hp; congruence|].
  destruct l' as [|b l']; [apply Permutation_sym, Permutation_nil in Hp; discriminate|].
  inversion Hl as [|? ? Hl1 Hl2]; inversion Hl' as [|? ? Hl1' Hl2']; subst. rewrite Forall_forall in *.
  assert (a = b).
  { assert (H1 : In a (b :: l')) by (eapply Permutation_in; [exact Hp|left; reflexivity]).
    assert (H2 : In b (a :: l)) by (eapply Permutation_in; [apply Permutation_sym; exact Hp|left; reflexivity]).
    destruct H1 as [|H1]; [congruence|]. destruct H2 as [|H2]; [congruence|]. specialize (Hl2 _ H2). specialize (Hl2' _ H1). lia. }
  subst b. f_equal. apply IH; auto. eapply Permutation_cons_inv; eassumption.
Qed.
Lemma seq_sorted n : forall s, StronglySorted le (seq s n).
Proof. induction n as [|n IH]; intros s; constructor; auto. apply Forall_forall. intros x Hx. apply in_seq in Hx. lia. Qed.
Lemma combine_seq (l : list Q) : forall s, map snd (combine l (seq s (length l))) = seq s (length l) /\
  forall q i, In (q, i) (combine l (seq s (length l))) -> nth_error l (i - s) = Some q /\ (s <= i)%nat.
Proof.
  induction l as [|a l IH]; intros s; cbn; [split; [reflexivity|intros q i []]|]. destruct (IH (S s)) as [E H]. rewrite E. split; [reflexivity|].
  intros q i [Hq|Hq].
  - inversion Hq; subst. rewrite Nat.sub_diag. split; [reflexivity|lia].
  - destruct (H q i Hq) as [H1 H2]. split; [|lia]. replace (i - s)%nat with (S (i - S s)) by lia. exact H1.
Qed.
Lemma random_linear_ok l g : l <> [] -> exists l' g', random_linear std_sort uniform l g = Some (l', g') /\ length l' = length l /\
  (forall i q q', nth_error l i = Some q -> nth_error l' i = Some q' -> (q <= q')%Q) /\
  (forall i j q r q' r', nth_error l i = Some q -> nth_error l j = Some r -> nth_error l' i = Some q' -> nth_error l' j = Some r' ->
    (q < r)%Q -> (q' < r')%Q).
Proof.
  intros Hne. unfold random_linear. set (L := combine l (seq 0 (length l))). destruct (combine_seq l 0) as [ES HL]. fold L in ES, HL.
  pose proof (Hperm _ (fun a b : Q * nat => qlt (fst a) (fst b)) L) as HP.
  assert (HS : StronglySorted (fun a b : Q * nat => (fst a <= fst b)%Q) (std_sort _ (fun a b => qlt (fst a) (fst b)) L)).
  { assert (H : StronglySorted (fun a b : Q * nat => qlt (fst b) (fst a) = false) (std_sort _ (fun a b => qlt (fst a) (fst b)) L)).
    { apply (Hsort _ (fun a b : Q * nat => qlt (fst a) (fst b))).
      - intros a. apply qlt_false. apply Qle_refl.
      - intros a b c. rewrite !qlt_iff. lra.
      - intros a b c. rewrite !qlt_false. lra. }
    clear -H. induction H; constructor; auto. eapply Forall_impl; [|exact H0]. intros b Hb. apply qlt_false in Hb. exact Hb. }
  destruct (std_sort (Q * nat)%type (fun a b => qlt (fst a) (fst b)) L) as [|p r] eqn:Er.
  { apply Permutation_nil in HP. apply (f_equal (@length _)) in HP. unfold L in HP. rewrite combine_length, seq_length in HP. destruct l; [contradiction|cbn in HP; lia]. }
  inversion HS as [|? ? HS' Hf]; subst. rewrite Forall_forall in Hf.
  destruct (spread_ok r [] [p] (fst p) g) as (T & g' & E & E1 & HT).
  { split; [intros t []|intros t t' []]. } { intros t []. } { discriminate. } { intros q Hq. destruct Hq as [<-|[]]. reflexivity. } { exact HS'. } { exact Hf. }
  cbn [map] in E, E1. rewrite E. cbn [bind]. set (out := std_sort _ _ (map snd T)). 
  assert (HPo : Permutation out (map snd T)) by apply Hperm.
  assert (Hso : map snd out = seq 0 (length l)).
  { apply sorted_unique; [|apply seq_sorted|].
    - assert (H : StronglySorted (fun a b : Q * nat => Nat.ltb (snd b) (snd a) = false) out).
      { apply (Hsort _ (fun a b : Q * nat => Nat.ltb (snd a) (snd b))).
        - intros a. apply Nat.ltb_irrefl.
        - intros a b c. rewrite !Nat.ltb_lt. lia.
        - intros a b c. rewrite !Nat.ltb_ge. lia. }
      clear -H. induction H; cbn; constructor; auto. apply Forall_map. eapply Forall_impl; [|exact H0]. cbn. intros b Hb. apply Nat.ltb_ge in Hb. exact Hb.
    - rewrite <- ES. transitivity (map snd (map snd T)); [apply Permutation_map; exact HPo|].
      replace (map snd (map snd T)) with (map snd (map fst T)).
      + rewrite E1. apply Permutation_map. exact HP.
      + rewrite !map_map. apply map_ext_in. intros t Ht. apply HT. exact Ht. }
  exists (map fst out), g'. split; [reflexivity|].
  assert (Hlen : length out = length l) by (rewrite <- (map_length snd), Hso, seq_length; reflexivity).
  split; [rewrite map_length; exact Hlen|].
  assert (Hget : forall i q q', nth_error l i = Some q -> nth_error (map fst out) i = Some q' -> In ((q, i), (q', i)) T).
  { intros i q q' Hq Hq'. rewrite nth_error_map in Hq'. destruct (nth_error out i) as [[w k]|] eqn:Ei; [|discriminate]. cbn in Hq'. inversion Hq'; subst w; clear Hq'.
    assert (Hk : nth_error (map snd out) i = Some k) by (rewrite nth_error_map, Ei; reflexivity). rewrite Hso, nth_error_seq in Hk.
    destruct (Nat.ltb i (length l)); [|discriminate]. inversion Hk; subst k; clear Hk. cbn in Ei.
    assert (Hin : In (q', i) (map snd T)) by (eapply Permutation_in; [exact HPo|]; eapply nth_error_In; exact Ei).
    apply in_map_iff in Hin. destruct Hin as ([o w] & Ew & Ht). cbn in Ew. subst w. destruct o as [q0 i0]. destruct HT as [HT _]. pose proof (HT _ Ht) as [Hi _]. cbn in Hi. subst i0.
    assert (HinL : In (q0, i) L). { eapply Permutation_in; [exact HP|]. change (p :: r) with ([] ++ [p] ++ r). cbn [app] in *. rewrite <- E1. apply in_map_iff. exists ((q0, i), (q', i)). auto. }
    apply HL in HinL. rewrite Nat.sub_0_r in HinL. destruct HinL as [HinL _]. rewrite Hq in HinL. inversion HinL; subst q0. exact Ht. }
  split.
  - intros i q q' Hq Hq'. pose proof (Hget i q q' Hq Hq') as Ht. destruct HT as [HT _]. apply HT in Ht. cbn in Ht. apply Ht.
  - intros i j q r0 q' r' Hq Hr Hq' Hr' Hlt. pose proof (Hget i q q' Hq Hq') as Hi. pose proof (Hget j r0 r' Hr Hr') as Hj.
    destruct HT as [HT1 HT2]. specialize (HT2 _ _ Hi Hj Hlt). apply HT1 in Hj. cbn in *. lra.
Qed.

Lemma cost_at_linear l idx v x : (forall i, (i <= length l)%nat -> nth_error idx i = Some 0%nat) -> (v < length l)%nat ->
  cost_at (mk_costs l [] idx) v x = nth_error l v.
Proof.
  intros Hidx Hv. unfold cost_at. cbn [co_linear co_quads co_indices]. destruct (nth_error l v); [|reflexivity]. cbn [bind].
  rewrite !Hidx by lia. reflexivity.
Qed.
Lemma random_norm_ok o n c g : (0 < n)%nat -> o_qelements o = [] -> (exists v, (v < n)%nat /\ 0 <= linear_coef o v) ->
  make_costs o n = Some c ->
  exists c' g', normalize std_sort uniform cn_random c g = Some (c', g') /\ keeps_order n c c' /\ readable n c'.
Proof.
  intros Hn Hq (v0 & Hv0 & Hnn) E. pose proof (make_costs_linear o n c E) as Hlen. pose proof (make_costs_dom o n c Hn E) as Ho.
  destruct (make_costs_at o n c v0 Ho Hv0 E) as (_ & q0 & Hq0 & Eq0 & _).
  assert (Hc : co_quads c = [] /\ forall i, (i <= n)%nat -> nth_error (co_indices c) i = Some 0%nat).
  { revert E. unfold make_costs. destruct (linear_elements o n); [|discriminate]. cbn [bind]. rewrite Hq. destruct (_ || _); [|discriminate].
    assert (H0 : forall s m, flat_map (fun v => quads_of v []) (seq s m) = []) by (intros s m; revert s; induction m; intros; cbn; auto).
    rewrite H0. cbn [length Nat.leb]. intros E. inversion E; subst c. cbn. split; [reflexivity|]. intros i Hi. rewrite indices_nth by exact Hi. rewrite H0. reflexivity. }
  destruct Hc as [Hc1 Hc2]. cbn [normalize]. unfold random_norm.
  destruct (random_linear_ok (co_linear c) g) as (l' & g' & El & Ll & Hge & Hord); [intros H; rewrite H in Hlen; cbn in Hlen; lia|].
  rewrite El. cbn [bind]. rewrite Hc1. destruct (nth_error l' v0) as [q0'|] eqn:E0; [|apply nth_error_None in E0; lia].
  destruct (loo_norm_scaled n (mk_costs l' [] (co_indices c))) as (c' & Ec' & Hs).
  { cbn. lia. } { exists q0'. split; [unfold factors; cbn; rewrite app_nil_r; eapply nth_error_In; exact E0|]. specialize (Hge _ _ _ Hq0 E0). assert (0 <= q0)%Q by (rewrite Eq0; unfold Qle; cbn; lia). lra. }
  rewrite Ec'. cbn [bind]. exists c', g'. split; [reflexivity|].
  assert (Hmid : forall v x, (v < n)%nat -> cost_at (mk_costs l' [] (co_indices c)) v x = nth_error l' v).
  { intros v x Hv. apply cost_at_linear; [|lia]. intros i Hi. apply Hc2. lia. }
  assert (Hold : forall v x, (v < n)%nat -> cost_at c v x = nth_error (co_linear c) v).
  { intros v x Hv. destruct c as [lc qc ic]. cbn in *. subst qc. apply cost_at_linear; [|lia]. intros i Hi. apply Hc2. lia. }
  assert (Hr1 : readable n (mk_costs l' [] (co_indices c))).
  { intros x v Hx Hv. rewrite Hmid by exact Hv. destruct (nth_error l' v) eqn:Ev; [eauto|apply nth_error_None in Ev; lia]. }
  destruct (scaled_keeps n _ c' Hs Hr1) as (Ho1 & _ & _ & Hr'). split; [|exact Hr'].
  intros x u v a b a' b' Hx Hu Hv Ea Eb Ea' Eb' Hlt. destruct (Hr1 x u Hx Hu) as (a1 & Ha1). destruct (Hr1 x v Hx Hv) as (b1 & Hb1).
  apply (Ho1 x u v a1 b1 a' b' Hx Hu Hv Ha1 Hb1 Ea' Eb'). rewrite Hmid in Ha1, Hb1 by assumption. rewrite Hold in Ea, Eb by assumption.
  apply (Hord u v a b a1 b1); assumption.
Qed.
End RandomProofs.
