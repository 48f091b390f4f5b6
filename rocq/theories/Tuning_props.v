(** Properties of the branch and of the manual optimizers: C46, C47. *)
From Coq Require Import Lia Arith QArith Ascii String Permutation.
From Verif Require Import Base Problem_model Problem_spec Preprocess_model Preprocess_spec Tuning_model Tuning_spec Tuning_proofs Tuning_proofs2 Tuning_proofs3.
Open Scope string_scope.
Open Scope list_scope.
Open Scope nat_scope.

(** C46. The branch optimizer never runs for ever: after at most 3^n + 1 turns, n being the number of
    variables, it stops, whatever the solver answers ... *)
Theorem C46_ends_partial :
  forall (run : nat -> problem -> outcome bresult) (pb : problem),
  index_ok pb ->
  forall fuel, 3 ^ length (v_values (p_vars pb)) < fuel -> branch_optimize run fuel pb <> Br_fuel.
Proof.
  intros run pb Hi fuel Hf. unfold branch_optimize. destruct (run 0 pb) as [ best | | ]; try discriminate.
  destruct (if b_success best then front best else Some 0%Z); [ | discriminate ].
  unfold make_node. destruct (if b_success best then back best else Some 0%Z) as [ z9 | ]; cbn [bind]; [ | discriminate ].
  match goal with |- branch_loop _ _ ?k ?a ?j ?b <> _ => destruct (branch_loop_fails run fuel k a j b) as [ -> | -> ] end; try discriminate.
  - constructor; [ exact Hi | constructor ].
  - unfold weight. cbn [fold_right n_problem]. lia.
Qed.
Print Assumptions C46_ends_partial.
(** ... but never with a result: it stops by a failed contract, an undefined behaviour or an exception,
    for every problem, every answers of the solver, every number of turns. *)
Theorem C46_returns_a_result_refuted :
  forall (run : nat -> problem -> outcome bresult) (pb : problem) (fuel : nat) (r : bresult),
  branch_optimize run fuel pb <> Br_done r.
Proof.
  intros run pb fuel r. unfold branch_optimize. destruct (run 0 pb) as [ best | | ]; try discriminate.
  destruct (if b_success best then front best else Some 0%Z); [ | discriminate ].
  destruct (make_node pb best); [ | discriminate ]. apply branch_loop_never.
Qed.
Print Assumptions C46_returns_a_result_refuted.
Definition x_bin : variable_value := mk_variable_value 0 1 vt_binary.
Definition x_pb : problem :=
  mk_problem (mk_objective [] [] 0) [mk_constraint (str "c1") [mk_felem 1 0; mk_felem 1 1; mk_felem 1 2] 1 0] [] []
    (mk_variables [str "x"; str "y"; str "z"] [x_bin; x_bin; x_bin]) (mk_affected [] []) minimize equalities_01.
Definition x_run (k : nat) (pb : problem) : outcome bresult := Ok (mk_bresult true [Z.of_nat k] 1 0 0).
Example C46_example : index_ok x_pb /\ branch_optimize x_run 28 x_pb = Br_crash /\ branch_optimize x_run 1 x_pb = Br_fuel.
Proof.
  split; [ | split; vm_compute; reflexivity ].
  intros c e Hc He. cbn in Hc. destruct Hc as [ <- | [] ]. cbn in He. destruct He as [ <- | [ <- | [ <- | [] ] ] ]; cbn; lia.
Qed.

(** What it does before it stops: each turn solves the two halves of the job, the solution kept is
    one of those found and none of them is better, and the jobs, to which the two halves are
    added, wait in order. *)
Theorem C46_turn_keeps_the_best :
  forall run k annoying it jobs best jobs2 best2,
  branch_turn run k annoying it jobs best = Ok (Some (jobs2, best2)) ->
  exists p0 p1 r0 r1, split (S (List.length (v_values (p_vars (n_problem it))))) (n_problem it) (Z.to_nat annoying) = Ok (Some p0, Some p1) /\
    run k p0 = Ok r0 /\ run (S k) p1 = Ok r1 /\ In best2 [best; r0; r1] /\
    (forall r, In r [best; r0; r1] -> ~ better_find (p_type (n_problem it)) (found r) (found best2)) /\
    (exists n0 n1, n_problem n0 = p0 /\ n_problem n1 = p1 /\ n_remaining n0 = b_remaining r0 /\ n_remaining n1 = b_remaining r1 /\
       Permutation jobs2 (n0 :: n1 :: jobs)) /\
    (in_order (p_type (n_problem it)) jobs -> in_order (p_type (n_problem it)) jobs2).
Proof. exact branch_turn_keeps. Qed.
Print Assumptions C46_turn_keeps_the_best.
(** The first turn on x_pb: the halves have the values 5 and 2, the job kept from before 3. *)
Definition x_job (rem : Z) : node := mk_node x_pb 3 rem 0.
Definition x_run2 (k : nat) (pb : problem) : outcome bresult :=
  Ok (mk_bresult true [if Nat.eqb k 1 then 5%Z else 2%Z] 1 (if Nat.eqb k 1 then 0 else 4)%Z 0).
Example C46_turn_example : exists jobs2 best2,
  branch_turn x_run2 1 0 (x_job 1) [x_job 2; x_job 7] (mk_bresult true [3%Z] 1 1 0) = Ok (Some (jobs2, best2)) /\
  in_order minimize [x_job 2; x_job 7] /\ map n_remaining jobs2 = [0; 2; 4; 7]%Z /\ b_values best2 = [2%Z].
Proof.
  destruct (branch_turn x_run2 1 0 (x_job 1) [x_job 2; x_job 7] (mk_bresult true [3%Z] 1 1 0)) as [[[jobs2 best2]|]| |] eqn:E;
    vm_compute in E; try discriminate. injection E as <- <-. eexists _, _. split; [reflexivity|]. split; [|split; reflexivity].
  intros i j a b Hij Ha Hb.
  destruct i as [|[|[|i]]]; cbn in Ha; try discriminate; (destruct j as [|[|[|j]]]; cbn in Hb; try discriminate; try lia).
  injection Ha as <-. injection Hb as <-. unfold more_promising, better_value. cbn. lia.
Qed.
(** Without a solution the comparison reads the number of constraints, not of those that remain:
    the half that violates 1 constraint does not replace the result that violates 3. *)
Theorem C46_closest_failure_refuted :
  exists run k annoying it jobs best jobs2 best2 p0 r0,
  branch_turn run k annoying it jobs best = Ok (Some (jobs2, best2)) /\ run k p0 = Ok r0 /\ In p0 (map n_problem jobs2) /\
  b_success best = false /\ b_success r0 = false /\ (b_remaining r0 < b_remaining best2)%Z.
Proof.
  destruct (branch_turn (fun _ _ => Ok (mk_bresult false [] 3 1 0)) 1 0 (x_job 1) [] (mk_bresult false [] 3 3 0)) as [[[jobs2 best2]|]| |] eqn:E;
    vm_compute in E; try discriminate.
  exists (fun _ _ => Ok (mk_bresult false [] 3 1 0)), 1, 0%Z, (x_job 1), [], (mk_bresult false [] 3 3 0).
  injection E as E1 E2. exists jobs2, best2, (n_problem (hd (x_job 1) jobs2)), (mk_bresult false [] 3 1 0).
  split; [rewrite <- E1, <- E2; vm_compute; reflexivity|].
  split; [reflexivity|]. split; [rewrite <- E1; left; reflexivity|]. rewrite <- E2. cbn. repeat split; lia.
Qed.
Print Assumptions C46_closest_failure_refuted.

(** C47. The iterators of the tables: from all zeros, for every length, the calls of next go through
    each of the len^len combinations once, and the last call says that there is no other. *)
Theorem C47_every_combination_partial :
  forall len, 0 < len ->
  let it i := Nat.iter i (fun l => snd (next len l)) (repeat 0 len) in
  (forall i j, i < len ^ len -> j < len ^ len -> it i = it j -> i = j) /\
  (forall l, List.length l = len -> (forall d, In d l -> d < len) -> exists i, i < len ^ len /\ it i = l) /\
  (forall i, i < len ^ len -> fst (next len (it i)) = negb (Nat.eqb (S i) (len ^ len))).
Proof.
  intros len Hl it.
  assert (E : forall i, i < len ^ len -> it i = its len i).
  { induction i as [ |i IH ]; intros Hi; [ symmetry; apply its_zero; exact Hl | ].
    change (it (S i)) with (snd (next len (it i))). rewrite IH by lia. rewrite next_its by lia.
    destruct (Nat.ltb_spec (S i) (len ^ len)); [ reflexivity | lia ]. }
  split; [ | split ].
  - intros i j Hi Hj H. rewrite !E in H by assumption. apply (its_inj len); assumption.
  - intros l H1 H2. destruct (its_onto len l Hl H1 H2) as (i & Hi & H). exists i. split; [ exact Hi | ]. rewrite E by exact Hi. exact H.
  - intros i Hi. rewrite E, next_its by assumption. destruct (Nat.ltb_spec (S i) (len ^ len)), (Nat.eqb_spec (S i) (len ^ len)); try reflexivity; lia.
Qed.
Print Assumptions C47_every_combination_partial.

(** The runs: with tables of five values whose first ones are the parameters of the user, the solver is
    run once for each combination, then once more with the last combination. *)
Theorem C47_runs_partial :
  forall D dadd ddiv dmul dnat c_1 c_01 c_1em2 c_1em7 c_09 c_5 (run : nat -> five D -> outcome bresult) fuel t0 d0 km0 ks0 r0 runs last r,
  manual_optimize D dadd ddiv dmul dnat c_1 c_01 c_1em2 c_1em7 c_09 c_5 run fuel (t0, d0, km0, ks0, r0) = Ok (Some (runs, last, r)) ->
  exists (theta delta kappa_min kappa_step policy : nat -> D) (combination : nat -> nat * nat * nat * nat * nat),
  theta 0 = t0 /\ delta 0 = d0 /\ kappa_min 0 = km0 /\ kappa_step 0 = ks0 /\ policy 0 = r0 /\
  List.length runs = 5 ^ 5 /\
  (forall i j, i < 5 ^ 5 -> j < 5 ^ 5 -> combination i = combination j -> i = j) /\
  (forall a b c d e, a < 5 -> b < 5 -> c < 5 -> d < 5 -> e < 5 -> exists i, i < 5 ^ 5 /\ combination i = (a, b, c, d, e)) /\
  (forall i p a, nth_error runs i = Some (p, a) ->
     (let '(i0, i1, i2, i3, i4) := combination i in p = (theta i0, delta i1, kappa_min i2, kappa_step i3, policy i4)) /\
     run i p = Ok a) /\
  last = (theta 4, delta 4, kappa_min 4, kappa_step 4, policy 4) /\ run (5 ^ 5) last = Ok r.
Proof.
  intros D dadd ddiv dmul dnat c_1 c_01 c_1em2 c_1em7 c_09 c_5 run fuel t0 d0 km0 ks0 r0 runs last r H.
  apply manual_optimize_runs in H. destruct H as (H1 & H2 & H3 & H4).
  eexists (theta_at D dadd ddiv dnat c_1 t0 5), (table_at D dadd ddiv dnat c_1 t0 d0 _ _ 5), (table_at D dadd ddiv dnat c_1 t0 km0 _ _ 5),
    (table_at D dadd ddiv dnat c_1 t0 ks0 _ _ 5), (table_at D dadd ddiv dnat c_1 t0 r0 _ _ 5),
    (fun i => (nth 0 (its 5 i) 0, nth 1 (its 5 i) 0, nth 2 (its 5 i) 0, nth 3 (its 5 i) 0, nth 4 (its 5 i) 0)).
  repeat (split; [ reflexivity | ]). split; [ exact H1 | ].
  assert (L : forall i, exists a b c d e, its 5 i = [a; b; c; d; e] /\ a < 5 /\ b < 5 /\ c < 5 /\ d < 5 /\ e < 5).
  { intros i. destruct (its_shape 5 i ltac:(lia)) as [ A B ].
    destruct (its 5 i) as [ |a [ |b [ |c [ |d [ |e [ |f l ] ] ] ] ] ]; try discriminate A.
    exists a, b, c, d, e. split; [ reflexivity | ]. repeat split; apply B; cbn; auto 10. }
  split; [ | split; [ | split; [ | split ] ] ].
  - intros i j Hi Hj E. apply (its_inj 5 i j ltac:(lia) Hi Hj).
    destruct (L i) as (a & b & c & d & e & Ei & _), (L j) as (a' & b' & c' & d' & e' & Ej & _). rewrite Ei, Ej in *. cbn in E. congruence.
  - intros a b c d e Ha Hb Hc Hd He. destruct (its_onto 5 [a; b; c; d; e] ltac:(lia) eq_refl) as (i & Hi & E).
    + intros x Hx. cbn in Hx. repeat (destruct Hx as [ <- | Hx ]; [ assumption | ]). destruct Hx.
    + exists i. split; [ exact Hi | ]. rewrite E. reflexivity.
  - intros i p x Hi. destruct (H2 i _ Hi) as [ K1 K2 ]. split; [ | exact K2 ]. cbn [fst] in K1.
    destruct (L i) as (a & b & c & d & e & Ei & _). rewrite Ei in *. unfold course in K1. cbn [nth_error bind nth] in *.
    match type of K1 with (if ?t then _ else _) = _ => destruct t end; [ | discriminate K1 ]. injection K1 as <-. reflexivity.
  - cbn in H3. injection H3 as <-. reflexivity.
  - exact H4.
Qed.
Print Assumptions C47_runs_partial.
Theorem C47_terminates :
  forall D dadd ddiv dmul dnat c_1 c_01 c_1em2 c_1em7 c_09 c_5 (run : nat -> five D -> outcome bresult) fuel p0,
  5 ^ 5 <= fuel -> manual_optimize D dadd ddiv dmul dnat c_1 c_01 c_1em2 c_1em7 c_09 c_5 run fuel p0 <> Ok None.
Proof. intros. apply manual_optimize_ends. assumption. Qed.
Print Assumptions C47_terminates.

(** The best combination is not the one of the answer: here only the first run, with the parameters of
    the user, finds the value 0, every other finds 7, and the answer is one of the parameters of the
    last combination, with the value 7. *)
Definition q_run (k : nat) (p : five Q) : outcome bresult :=
  Ok (mk_bresult true [if Nat.eqb k 0 then 0%Z else 7%Z] 1 0 0).
Definition q_optimize (run : nat -> five Q -> outcome bresult) (p0 : five Q) :=
  manual_optimize Q (fun a b => Qred (a + b)) (fun a b => Qred (a / b)) (fun a b => Qred (a * b)) (fun i => inject_Z (Z.of_nat i))
    1%Q (1 # 10)%Q (1 # 100)%Q (1 # 10000000)%Q (9 # 10)%Q 5%Q run (5 ^ 5) p0.
Definition q_params : five Q := ((1 # 2), (1 # 100), (1 # 10), (1 # 1000), (1 # 2))%Q.
Definition q_end := Eval vm_compute in
  match q_optimize q_run q_params with
  | Ok (Some (runs, last, r)) => Some (hd_error runs, last, r, forallb (fun pr => Z.eqb (hd 0%Z (b_values (snd pr))) 7) (tl runs))
  | _ => None end.
Theorem C47_best_combination_refuted :
  exists run p0 runs last r, q_optimize run p0 = Ok (Some (runs, last, r)) /\
    (exists best, hd_error runs = Some (p0, best) /\ b_success best = true /\ b_values best = [0%Z]) /\
    (forall p a, In (p, a) (tl runs) -> hd 0%Z (b_values a) = 7%Z) /\
    last <> p0 /\ b_success r = true /\ b_values r = [7%Z].
Proof.
  exists q_run, q_params.
  assert (E : match q_optimize q_run q_params with
    | Ok (Some (runs, last, r)) => Some (hd_error runs, last, r, forallb (fun pr => Z.eqb (hd 0%Z (b_values (snd pr))) 7) (tl runs))
    | _ => None end = q_end) by (vm_compute; reflexivity).
  destruct (q_optimize q_run q_params) as [ [ [[runs last] r] | ] | | ]; try discriminate E.
  exists runs, last, r. injection E as E1 E2 E3 E4. split; [ reflexivity | ].
  split; [ eexists; split; [ exact E1 | split; reflexivity ] | ]. split.
  - intros p a H. rewrite forallb_forall in E4. apply E4 in H. apply Z.eqb_eq in H. exact H.
  - subst last r. split; [ discriminate | ]. split; reflexivity.
Qed.
Print Assumptions C47_best_combination_refuted.
Example C47_example_iterators :
  map (fun i => Nat.iter i (fun l => snd (next 2 l)) [0; 0]) [0; 1; 2; 3] = [[0; 0]; [0; 1]; [1; 0]; [1; 1]] /\ fst (next 2 [1; 1]) = false.
Proof. split; reflexivity. Qed.
Example C47_example_runs :
  match q_optimize q_run q_params with Ok (Some (runs, last, r)) => Nat.eqb (List.length runs) (5 ^ 5) | _ => false end = true.
Proof. vm_compute. reflexivity. Qed.
