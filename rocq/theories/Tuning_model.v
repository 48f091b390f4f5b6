(** Model of lib/src/branch-optimizer.cpp:35-215 and lib/src/manual-optimizer.cpp:31-174. Logging is
    left out. itm::optimize, the solver run by both, is any function of the number of the call and of
    its arguments. *)
From Verif Require Import Base Problem_model Preprocess_model.
Open Scope Z_scope.

(** The fields of struct result read by the two functions (core:716-748). [b_values]: the values of the
    solutions, in order. The values are exact numbers. *)
Record bresult := mk_bresult {
  b_success : bool; b_values : list Z; b_constraints : Z; b_remaining : Z; b_annoying : Z }.

(** *** branch-optimizer.cpp *)
(** solutions.front() and solutions.back(); None: undefined behaviour *)
Definition front (r : bresult) : option Z := hd_error (b_values r).
(** solutions.back() *)
Definition back (r : bresult) : option Z := nth_error (b_values r) (Nat.pred (length (b_values r))).
(** is_best, 35-59 *)
Definition is_best (l r : bresult) (t : objective_type) : option bool :=
  if b_success l then
    if b_success r then
      do a <- front l; do b <- front r;
      Some (match t with maximize => b <? a | minimize => a <? b end)
    else Some true
  else if b_success r then Some false
  else Some (b_constraints l <? b_constraints r).

(** node, 83-102 *)
Record node := mk_node { n_problem : problem; n_solution : Z; n_remaining : Z; n_annoying : Z }.
(** node_result_compare, 113-134 *)
Definition node_less (l r : node) : bool :=
  if n_remaining l =? 0 then
    if n_remaining r =? 0 then
      match p_type (n_problem l) with maximize => n_solution r <? n_solution l | minimize => n_solution l <? n_solution r end
    else true
  else if n_remaining r =? 0 then false else n_remaining l <? n_remaining r.
(** std::multiset::emplace: after the elements that are not greater *)
Fixpoint jobs_emplace (a : node) (l : list node) : list node :=
  match l with [] => [a] | b :: l' => if node_less a b then a :: l else b :: jobs_emplace a l' end.
(** The node of a result, 152-155, 174-177, 183-186 *)
Definition make_node (pb : problem) (r : bresult) : option node :=
  do s <- (if b_success r then back r else Some 0);
  Some (mk_node pb s (b_remaining r) (b_annoying r)).
(** operator[] of std::vector *)
Definition at_index {A} (l : list A) (i : Z) : option A := if i <? 0 then None else nth_error l (Z.to_nat i).

(** How the loop of lib/src/branch-optimizer.cpp ends: a result, an exception, undefined behaviour, or no more fuel. *)
Inductive branch_result := Br_done (best : bresult) | Br_throw | Br_crash | Br_fuel.
Section Branch.
Variable run : nat -> problem -> outcome bresult.
(** The loop of affects() needs at most as many turns as there are variables
    (Tuning_proofs.split_ends). *)
Definition split_all (pb : problem) (v : Z) : outcome (option problem * option problem) :=
  if v <? 0 then Crash else split (S (length (v_values (p_vars pb)))) pb (Z.to_nat v).
(** One turn of the loop, 159-188: [k] calls of the solver have been made. The jobs are compared only
    when they are inserted, so that erasing [it] last is erasing the first element now. *)
Definition branch_turn (k : nat) (annoying : Z) (it : node) (jobs : list node) (best : bresult)
  : outcome (option (list node * bresult)) :=
  let! _ := of_opt (at_index (v_names (p_vars (n_problem it))) (n_annoying it)) in
  let! (s1, s0) := split_all (n_problem it) annoying in
  match s1, s0 with
  | Some p0, Some p1 =>
    let! r0 := run k p0 in
    let! i0 := of_opt (is_best r0 best (p_type (n_problem it))) in
    let best := if i0 then r0 else best in
    let! n0 := of_opt (make_node p0 r0) in
    let! r1 := run (S k) p1 in
    let! i1 := of_opt (is_best r1 best (p_type (n_problem it))) in
    let best := if i1 then r1 else best in
    let! n1 := of_opt (make_node p1 r1) in
    Ok (Some (jobs_emplace n1 (jobs_emplace n0 jobs), best))
  | _, _ => Ok None
  end.
(** 159-211 *)
Fixpoint branch_loop (fuel k : nat) (annoying : Z) (jobs : list node) (best : bresult) : branch_result :=
  match fuel with
  | O => Br_fuel
  | S fuel' =>
    match jobs with
    | [] => Br_crash (* begin() of an empty set *)
    | it :: jobs' =>
      match branch_turn k annoying it jobs' best with
      | Ok (Some (jobs2, best2)) =>
        match jobs2 with [] => Br_done best2 | _ => branch_loop fuel' (2 + k) annoying jobs2 best2 end
      | Ok None => Br_fuel
      | Throw => Br_throw
      | Crash => Br_crash
      end
    end
  end.
(** optimize, 138-215 *)
Definition branch_optimize (fuel : nat) (pb : problem) : branch_result :=
  match run 0 pb with
  | Ok best =>
    match (if b_success best then front best else Some 0), make_node pb best with
    | Some _, Some n => branch_loop fuel 1 (b_annoying best) [n] best
    | _, _ => Br_crash
    end
  | Throw => Br_throw
  | Crash => Br_crash
  end.
End Branch.

(** *** manual-optimizer.cpp *)
(** next, 99-111, on the digits from the last to the first *)
Fixpoint next_rev (len : nat) (l : list nat) : bool * list nat :=
  match l with
  | [] => (false, [])
  | d :: r => if Nat.leb len (d + 1) then let (b, r') := next_rev len r in (b, 0%nat :: r') else (true, S d :: r)
  end.
(** next, manual-optimizer.cpp:99-111 *)
Definition next (len : nat) (iterators : list nat) : bool * list nat :=
  let (b, r) := next_rev len (rev iterators) in (b, rev r).

Section Manual.
(** double and its operations *)
Variable D : Type.
Variable dadd : D -> D -> D.
Variable ddiv : D -> D -> D.
Variable dmul : D -> D -> D.
Variable dnat : nat -> D.
(** The constants 1.0, 0.1, 1e-2, 1e-7, 0.9 and 5.0 *)
Variables c_1 c_01 c_1em2 c_1em7 c_09 c_5 : D.

(** 59-91: theta[i] = theta[i-1] + 1.0 / length from 2; the other tables also use theta[i-1] *)
Fixpoint theta_at (theta0 : D) (len i : nat) : D :=
  match i with
  | O => theta0
  | S O => ddiv c_1 (dnat len)
  | S j => dadd (theta_at theta0 len j) (ddiv c_1 (dnat len))
  end.
(** manual-optimizer.cpp:59-91, one cell *)
Definition table_at (theta0 x0 x1 step : D) (len i : nat) : D :=
  match i with O => x0 | S O => x1 | S j => dadd (theta_at theta0 len j) step end.
(** The five parameters: theta, delta, kappa_min, kappa_step, init_policy_random *)
Definition five := (D * D * D * D * D)%type.
(** 121-129: the parameters of the iterators. None: out of range *)
Definition course (p0 : five) (len : nat) (its : list nat) : option five :=
  let '(t0, d0, km0, ks0, r0) := p0 in
  do i0 <- nth_error its 0; do i1 <- nth_error its 1; do i2 <- nth_error its 2; do i3 <- nth_error its 3; do i4 <- nth_error its 4;
  if forallb (fun i => Nat.ltb i len) [i0; i1; i2; i3; i4] then
    Some (theta_at t0 len i0,
          table_at t0 d0 (ddiv c_01 (dnat len)) (ddiv c_01 (dmul c_5 (dnat len))) len i1,
          table_at t0 km0 (ddiv c_1em2 (dnat len)) (ddiv c_1em2 (dnat len)) len i2,
          table_at t0 ks0 (ddiv c_1em7 (dnat len)) (ddiv c_1em7 (dmul c_5 (dnat len))) len i3,
          table_at t0 r0 (ddiv c_09 (dnat len)) (ddiv c_09 (dnat len)) len i4)
  else None.
Variable run : nat -> five -> outcome bresult.
(** The loop, 128-160. [best]: None is +HUGE_VAL. The result: the runs made, their parameters and
    results in order, the best value and iterators. [Ok None]: out of fuel. *)
Definition improves (best : option Z) (v : Z) : bool := match best with None => true | Some b => v <? b end.
(** The state at the end of the loop of manual-optimizer.cpp:128-160. *)
Record course_end := mk_end { ce_runs : list (five * bresult); ce_best : option Z; ce_best_its : list nat; ce_its : list nat; ce_last : five }.
(** manual-optimizer.cpp:128-160 *)
Fixpoint manual_loop (fuel k len : nat) (p0 : five) (its : list nat) (best : option Z) (best_its : list nat) (done : list (five * bresult))
  : outcome (option course_end) :=
  match fuel with
  | O => Ok None
  | S fuel' =>
    let! p := of_opt (course p0 len its) in
    let! r := run k p in
    let! b := (if b_success r then of_opt (option_map (fun v => if improves best v then (Some v, its) else (best, best_its)) (back r))
               else Ok (best, best_its)) in
    let (more, its') := next len its in
    if more then manual_loop fuel' (S k) len p0 its' (fst b) (snd b) (done ++ [(p, r)])
    else Ok (Some (mk_end (done ++ [(p, r)]) (fst b) (snd b) its' p))
  end.
(** optimize, 114-174: the last call uses the parameters left in [internal]. The result: the runs of
    the loop, the parameters of the last call and its result. *)
Definition manual_optimize (fuel : nat) (p0 : five) : outcome (option (list (five * bresult) * five * bresult)) :=
  let len := 5%nat in
  let! e := manual_loop fuel 0 len p0 (repeat 0%nat len) None (repeat 0%nat len) [] in
  match e with
  | None => Ok None
  | Some e =>
    let! r := run (length (ce_runs e)) (ce_last e) in
    Ok (Some (ce_runs e, ce_last e, r))
  end.
End Manual.
