(** C127, C128: the values of solutions computed in double. *)
From Coq Require Import ZArith SpecFloat Lia Permutation.
From Verif Require Import Base Problem_model Problem_spec Solver_model Preprocess_model Double_model Double_spec Double_proofs.
Open Scope Z_scope.

(** C127: the coefficients and the constant of the objective function are multiples of a power of two (integers, halves, hundreds of
    thousands...), and the sum of their absolute values is at most 2^53 of these steps. Then the value computed in double by the solver,
    and the one computed in double by compute_solution, are the value of the solution, to the last bit. *)
Theorem C127_value_exact j o zo x :
  exact_range j zo -> same_objective j o zo -> known_variables zo (length x) ->
  (exists v, dresults o x = Some v /\ is_times j v (objective_value (assigns x) zo)) /\
  (x <> [] -> exists v, dcompute_solution o x = Some v /\ is_times j v (objective_value (assigns x) zo)).
Proof.
  intros [Hj B] S K. split; [now apply dresults_exact|]. intro Ne. now apply dcompute_solution_exact.
Qed.
Print Assumptions C127_value_exact.

(** The terms of the objective function in another order give an equal double. *)
Theorem C127_order_of_the_terms j o o' zo x v v' :
  exact_range j zo -> same_objective j o zo -> known_variables zo (length x) ->
  Permutation (do_elements o) (do_elements o') -> Permutation (do_qelements o) (do_qelements o') -> do_value o = do_value o' ->
  dresults o x = Some v -> dresults o' x = Some v' -> SFeqb v v' = true.
Proof.
  intros [Hj B] S K P1 P2 E R R'.
  assert (F : forall A B (Q : A -> B -> Prop) l l', Permutation l l' -> forall zl, Forall2 Q l zl ->
    exists zl', Permutation zl zl' /\ Forall2 Q l' zl').
  { intros A0 B0 Q l l' P. induction P as [|a l l' P IH|a b l|l l1 l2 P IHa P' IHb]; intros zl H.
    - inversion H; subst. now exists [].
    - inversion H as [|? z ? zs Ha Hs]; subst. destruct (IH _ Hs) as (zl' & Q1 & Q2). exists (z :: zl'). auto.
    - inversion H as [|? z ? zs Ha Hs]; subst. inversion Hs as [|? z' ? zs' Hb Hs']; subst. exists (z' :: z :: zs'). split; [constructor|auto].
    - destruct (IHa _ H) as (z1 & Q1 & Q2). destruct (IHb _ Q2) as (z2 & Q3 & Q4). exists z2. split; [now transitivity z1|assumption]. }
  destruct S as (Hv & Hl & Hq).
  destruct (F _ _ _ _ _ P1 _ Hl) as (el & Pl & Hl'). destruct (F _ _ _ _ _ P2 _ Hq) as (ql & Pq & Hq').
  set (zo' := mk_objective el ql (o_value zo)).
  assert (S' : same_objective j o' zo') by (split; [rewrite <- E; exact Hv|split; assumption]).
  assert (ML : forall f (l l' : list oelem), Permutation l l' -> fold_right (fun e s => f e + s) 0 l = fold_right (fun e s => f e + s) 0 l')
    by (intros f l l' P; induction P; cbn; lia).
  assert (MQ : forall f (l l' : list qelem), Permutation l l' -> fold_right (fun e s => f e + s) 0 l = fold_right (fun e s => f e + s) 0 l')
    by (intros f l l' P; induction P; cbn; lia).
  assert (B' : magnitude zo' <= 2 ^ 53).
  { unfold magnitude, zo' in *. cbn [o_value o_elements o_qelements]. rewrite <- (ML (fun e => Z.abs (o_factor e)) _ _ Pl).
    rewrite <- (MQ (fun e => Z.abs (q_factor e)) _ _ Pq). lia. }
  assert (K' : known_variables zo' (length x)).
  { destruct K as [K1 K2]. split; intros e I; [apply K1|apply K2]; eapply Permutation_in; [apply Permutation_sym; exact Pl|exact I|apply Permutation_sym; exact Pq|exact I]. }
  assert (LV : forall l, lin_value (assigns x) l = fold_right (fun e s => o_factor e * bz (assigns x (o_var e)) + s) 0 l) by (induction l; cbn; congruence).
  assert (QV : forall l, quad_value (assigns x) l = fold_right (fun e s => q_factor e * (bz (assigns x (q_vara e)) * bz (assigns x (q_varb e))) + s) 0 l)
    by (induction l; cbn; congruence).
  assert (V : objective_value (assigns x) zo' = objective_value (assigns x) zo).
  { unfold objective_value, zo'. cbn [o_value o_elements o_qelements]. rewrite !LV, !QV.
    rewrite (ML (fun e => o_factor e * bz (assigns x (o_var e))) _ _ Pl).
    rewrite (MQ (fun e => q_factor e * (bz (assigns x (q_vara e)) * bz (assigns x (q_varb e)))) _ _ Pq). reflexivity. }
  destruct (dresults_exact j Hj o zo x (conj Hv (conj Hl Hq)) B K) as (w & Ew & [Vw Ww]).
  destruct (dresults_exact j Hj o' zo' x S' B' K') as (w' & Ew' & [Vw' Ww']).
  replace v with w by congruence. replace v' with w' by congruence.
  unfold SFeqb. rewrite (compare_worth w w' _ _ Vw Vw' Ww Ww'), V, Z.compare_refl. reflexivity.
Qed.
Print Assumptions C127_order_of_the_terms.

(** The values of the model with integers (Solver_model.v) are the values computed in double. *)
Theorem C127_integers_for_doubles j o zo x :
  exact_range j zo -> same_objective j o zo -> known_variables zo (length x) ->
  exists v z, dresults o x = Some v /\ results zo x = Some z /\ is_times j v z.
Proof.
  intros [Hj B] S K. destruct (dresults_exact j Hj o zo x S B K) as (v & R & T).
  exists v, (objective_value (assigns x) zo). split; [exact R|]. split; [now apply results_value|exact T].
Qed.
Print Assumptions C127_integers_for_doubles.

(** The preprocessor adds the coefficients of the variables it fixes to the constant: no rounding either, and the objective function of
    the reduced problem is again in the range. *)
Theorem C127_reduced_objective j m o zo zo' :
  exact_range j zo -> same_objective j o zo -> o_qelements zo = [] ->
  objective_function_exclude_copy m zo (mk_merge_obj [] 0) = Some zo' ->
  exists o', dexclude_copy m o = Some o' /\ same_objective j o' zo' /\ exact_range j zo'.
Proof.
  intros [Hj B] S N C. destruct (dexclude_copy_exact j m o zo zo' Hj B S N C) as (o' & E & S' & B'). exists o'. repeat split; try assumption; try apply S'; lia.
Qed.
Print Assumptions C127_reduced_objective.

(** Without a common power of two, the value depends on the order of the terms: 0.1 + 0.2 + 0.3 and 0.3 + 0.2 + 0.1 are two
    different doubles, for the same solution of the same objective function. *)
Theorem C127_any_coefficients_refuted :
  exists o o' x v v', Permutation (do_elements o) (do_elements o') /\ do_value o = do_value o' /\ do_qelements o = do_qelements o' /\
    (forall e, In e (do_elements o) -> is_double (d_factor e)) /\
    dresults o x = Some v /\ dresults o' x = Some v' /\ f_lt v' v = true.
Proof.
  set (a := mk_delem (S754_finite false 7205759403792794 (-56)) 0). set (b := mk_delem (S754_finite false 7205759403792794 (-55)) 1).
  set (c := mk_delem (S754_finite false 5404319552844595 (-54)) 2).
  exists (mk_dobjective [a; b; c] [] f_zero), (mk_dobjective [c; b; a] [] f_zero), [true; true; true].
  eexists _, _. split; [|split; [reflexivity|split; [reflexivity|split; [|split; [vm_compute; reflexivity|split; [vm_compute; reflexivity|vm_compute; reflexivity]]]]]].
  - cbn [do_elements]. apply Permutation_sym. eapply perm_trans; [apply perm_swap|]. eapply perm_trans; [apply perm_skip, perm_swap|]. apply perm_swap.
  - cbn [do_elements In]. intros e [<-|[<-|[<-|[]]]]; vm_compute; reflexivity.
Qed.
Print Assumptions C127_any_coefficients_refuted.

(** Above 2^53, integers are no longer added exactly. *)
Theorem C127_large_integers_refuted :
  exists o zo x v, same_objective 1074 o zo /\ magnitude zo = 2 ^ 53 + 2 /\ known_variables zo (length x) /\
    dresults o x = Some v /\ objective_value (assigns x) zo = 2 ^ 53 + 2 /\ is_times 1074 v (2 ^ 53).
Proof.
  set (one := f_one). set (big := S754_finite false 4503599627370496 1).
  exists (mk_dobjective [mk_delem one 1; mk_delem one 2] [] big), (mk_objective [mk_oelem 1 1; mk_oelem 1 2] [] (2 ^ 53)), [true; true; true], big.
  assert (H1 : is_times 1074 one 1) by (split; vm_compute; reflexivity).
  assert (Hb : is_times 1074 big (2 ^ 53)) by (split; vm_compute; reflexivity).
  split; [|split; [reflexivity|split; [|split; [vm_compute; reflexivity|split; [reflexivity|exact Hb]]]]].
  - split; [exact Hb|]. split; [|constructor]. cbn [do_elements o_elements]. repeat constructor; assumption.
  - split; cbn [o_elements o_qelements In]; [intros e [<-|[<-|[]]]; cbn; lia|intros e []].
Qed.
Print Assumptions C127_large_integers_refuted.

(** The hypotheses: 3 x0 - 2.5 x1 + 0.5 x0 x1 + 4, in halves; all the theorems apply to it. *)
Definition ex_o : dobjective :=
  mk_dobjective [mk_delem (S754_finite false 6755399441055744 (-51)) 0; mk_delem (S754_finite true 5629499534213120 (-51)) 1]
    [mk_dqelem (S754_finite false 4503599627370496 (-53)) 0 1] (S754_finite false 4503599627370496 (-50)).
Definition ex_zo : objective := mk_objective [mk_oelem 6 0; mk_oelem (-5) 1] [mk_qelem 1 0 1] 8.
Example C127_hyps : exact_range 1073 ex_zo /\ same_objective 1073 ex_o ex_zo /\ known_variables ex_zo 2 /\
  objective_value (assigns [true; true]) ex_zo = 10 /\ dresults ex_o [true; true] = Some (S754_finite false 5629499534213120 (-50)).
Proof.
  split; [split; [lia|vm_compute; discriminate]|]. split; [|split; [|split; [reflexivity|vm_compute; reflexivity]]].
  - split; [split; vm_compute; reflexivity|]. split; repeat (constructor; [split; [split; vm_compute; reflexivity|auto]|]); constructor.
  - split; cbn [o_elements o_qelements In ex_zo]; [intros e [<-|[<-|[]]]; cbn; lia|intros e [<-|[]]; cbn; lia].
Qed.
Example C127_hyps_reduced : o_qelements (mk_objective [mk_oelem 6 0; mk_oelem (-5) 1] [] 8) = [] /\
  objective_function_exclude_copy [(None, true); (Some 0%nat, false)] (mk_objective [mk_oelem 6 0; mk_oelem (-5) 1] [] 8) (mk_merge_obj [] 0)
  = Some (mk_objective [mk_oelem (-5) 0] [] 14) /\
  dexclude_copy [(None, true); (Some 0%nat, false)] (mk_dobjective (do_elements ex_o) [] (do_value ex_o))
  = Some (mk_dobjective [mk_delem (S754_finite true 5629499534213120 (-51)) 0] [] (S754_finite false 7881299347898368 (-50))).
Proof. repeat split; vm_compute; reflexivity. Qed.

(** C128: in this range, the solver takes a solution for a better one exactly when its value is strictly better, and any solution is
    better than none; the bounds that are printed for the objective function bound the values of all the solutions. *)
Theorem C128_better_is_better j o zo mode x y v w :
  exact_range j zo -> same_objective j o zo -> known_variables zo (length x) -> known_variables zo (length y) ->
  dresults o x = Some v -> dresults o y = Some w ->
  (f_is_better mode v w = true <->
   match mode with
   | minimize => objective_value (assigns x) zo < objective_value (assigns y) zo
   | maximize => objective_value (assigns x) zo > objective_value (assigns y) zo
   end) /\ f_is_better mode v (f_bad mode) = true.
Proof.
  intros [Hj B] S Kx Ky R R'.
  destruct (dresults_exact j Hj o zo x S B Kx) as (v1 & R1 & T). assert (v1 = v) by congruence; subst v1.
  destruct (dresults_exact j Hj o zo y S B Ky) as (w1 & R2 & U). assert (w1 = w) by congruence; subst w1.
  split; [|destruct (is_times_finite _ _ _ T) as [F1 F2]; destruct mode; cbn [f_is_better f_bad]; assumption].
  destruct mode; cbn [f_is_better].
  - rewrite (f_lt_exact j _ _ _ _ (proj1 Hj) U T), Z.ltb_lt. lia.
  - rewrite (f_lt_exact j _ _ _ _ (proj1 Hj) T U), Z.ltb_lt. lia.
Qed.
Print Assumptions C128_better_is_better.

Theorem C128_bounds j o zo x v :
  exact_range j zo -> same_objective j o zo -> known_variables zo (length x) -> dresults o x = Some v ->
  f_lt v (fst (dmin_max o)) = false /\ f_lt (snd (dmin_max o)) v = false /\ f_lt (snd (dmin_max o)) (fst (dmin_max o)) = false.
Proof.
  intros [Hj B] S K R. destruct (dresults_exact j Hj o zo x S B K) as (v1 & R1 & T). assert (v1 = v) by congruence; subst v1.
  destruct (dmin_max_exact j Hj o zo S B) as [M1 M2].
  assert (L : forall a l, fold_right (fun e s => Z.min (o_factor e) 0 + s) 0 l <= lin_value a l <= fold_right (fun e s => Z.max (o_factor e) 0 + s) 0 l).
  { intros a l. induction l as [|e l IH]; cbn; [lia|]. destruct (a (o_var e)); cbn [bz]; lia. }
  assert (Q : forall a l, fold_right (fun e s => Z.min (q_factor e) 0 + s) 0 l <= quad_value a l <= fold_right (fun e s => Z.max (q_factor e) 0 + s) 0 l).
  { intros a l. induction l as [|e l IH]; cbn; [lia|]. destruct (a (q_vara e)), (a (q_varb e)); cbn [bz]; lia. }
  specialize (L (assigns x) (o_elements zo)). specialize (Q (assigns x) (o_qelements zo)).
  rewrite (f_lt_exact j _ _ _ _ (proj1 Hj) T M1), (f_lt_exact j _ _ _ _ (proj1 Hj) M2 T), (f_lt_exact j _ _ _ _ (proj1 Hj) M2 M1).
  unfold objective_value. repeat split; apply Z.ltb_ge; lia.
Qed.
Print Assumptions C128_bounds.

(** The bounds are the exact sums of the negative and of the positive coefficients, with the constant. *)
Theorem C128_bounds_exact j o zo : exact_range j zo -> same_objective j o zo ->
  is_times j (fst (dmin_max o)) (o_value zo + fold_right (fun e s => Z.min (o_factor e) 0 + s) 0 (o_elements zo)
                                 + fold_right (fun e s => Z.min (q_factor e) 0 + s) 0 (o_qelements zo)) /\
  is_times j (snd (dmin_max o)) (o_value zo + fold_right (fun e s => Z.max (o_factor e) 0 + s) 0 (o_elements zo)
                                 + fold_right (fun e s => Z.max (q_factor e) 0 + s) 0 (o_qelements zo)).
Proof. intros [Hj B] S. now apply dmin_max_exact. Qed.
Print Assumptions C128_bounds_exact.

Example C128_hyps : dresults ex_o [true; true] = Some (S754_finite false 5629499534213120 (-50)) /\
  dresults ex_o [false; true] = Some (S754_finite false 6755399441055744 (-52)) /\
  f_is_better maximize (S754_finite false 5629499534213120 (-50)) (S754_finite false 6755399441055744 (-52)) = true /\
  dmin_max ex_o = (S754_finite false 6755399441055744 (-52), S754_finite false 8444249301319680 (-50)).
Proof. repeat split; vm_compute; reflexivity. Qed.
