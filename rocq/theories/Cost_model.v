(** Model of the costs: default_cost_type and quadratic_cost_type, lib/src/itm-common.hpp
    (946-1440), with normalize_costs. Floats are rationals (rounding, overflow and denormal
    numbers are not modelled): std::isnormal is "not zero". [None]: a failed bx_ensures, a read
    out of bounds, or an undefined operation. *)
From Coq Require Import QArith Qabs Qround.
From Verif Require Import Base Problem_model Params_model.
Open Scope Q_scope.

(** 1006-1016 and 1170-1176: linear_elements *)
Fixpoint add_linear (l : list oelem) (n : nat) (c : list Q) : option (list Q) :=
  match l with
  | [] => Some c
  | e :: l' =>
    if Nat.ltb (o_var e) n
    then do c' <- list_modify c (o_var e) (fun q => q + inject_Z (o_factor e)); add_linear l' n c'
    else None
  end.
(** itm-common.hpp:1006-1016 and 1170-1176 *)
Definition linear_elements (o : objective) (n : nat) : option (list Q) :=
  add_linear (o_elements o) n (repeat 0 n).

(** quadratic_cost_type::quad, 1153-1157 *)
Record quad := mk_quad { qd_factor : Q; qd_id : nat }.

(** 1196-1211, inner loop: the elements stored for one variable *)
Fixpoint quads_of (v : nat) (l : list qelem) : list quad :=
  match l with
  | [] => []
  | e :: l' =>
    if Nat.eqb (q_vara e) v then mk_quad (inject_Z (q_factor e)) (q_varb e) :: quads_of v l'
    else if Nat.eqb (q_varb e) v then mk_quad (inject_Z (q_factor e)) (q_vara e) :: quads_of v l'
    else quads_of v l'
  end.
(** 1178-1194: indices; the number of elements where the variable is a or b is added *)
Fixpoint count_of (v : nat) (l : list qelem) : nat :=
  match l with
  | [] => 0
  | e :: l' => if Nat.eqb v (q_vara e) || Nat.eqb v (q_varb e) then S (count_of v l') else count_of v l'
  end.
(** itm-common.hpp:1178-1194 *)
Fixpoint indices_from (k v : nat) (last : nat) (l : list qelem) : list nat :=
  match k with
  | O => [last]
  | S k' => last :: indices_from k' (S v) (last + count_of v l) l
  end.
(** The costs: obj is not kept, the quadratic arrays are empty for default_cost_type. *)
Record costs := mk_costs { co_linear : list Q; co_quads : list quad; co_indices : list nat }.

(** 1163-1212. The array has 2 * qelements + 1 cells. *)
Definition quad_in (n : nat) (e : qelem) : bool := Nat.ltb (q_vara e) n && Nat.ltb (q_varb e) n.
(** The constructor, itm-common.hpp:1163-1212 *)
Definition make_costs (o : objective) (n : nat) : option costs :=
  do c <- linear_elements o n;
  if forallb (quad_in n) (o_qelements o) || Nat.eqb n 0 then
    let quads := flat_map (fun v => quads_of v (o_qelements o)) (seq 0 n) in
    if Nat.leb (length quads) (2 * length (o_qelements o) + 1)
    then Some (mk_costs c quads (indices_from n 0 0 (o_qelements o)))
    else None
  else None.

(** The elements between two positions. *)
Definition slice {A} (l : list A) (first last : nat) : list A := firstn (last - first) (skipn first l).
(** The loop of operator(), itm-common.hpp:1420-1422. *)
Fixpoint sum_quads (x : list bool) (l : list quad) (r : Q) : option Q :=
  match l with
  | [] => Some r
  | d :: l' => do b <- nth_error x (qd_id d); sum_quads x l' (if b then r + qd_factor d else r)
  end.
(** The loop of operator[], itm-common.hpp:1407-1408. *)
Fixpoint sum_all (l : list quad) (r : Q) : Q := match l with [] => r | d :: l' => sum_all l' (r + qd_factor d) end.
(** operator(), 1134-1138 and 1413-1425 *)
Definition cost_at (c : costs) (v : nat) (x : list bool) : option Q :=
  do r <- nth_error (co_linear c) v;
  do first <- nth_error (co_indices c) v; do last <- nth_error (co_indices c) (S v);
  if Nat.leb first last && Nat.leb last (length (co_quads c)) then sum_quads x (slice (co_quads c) first last) r else None.
(** operator[], 1129-1132 and 1400-1411 *)
Definition cost_of (c : costs) (v : nat) : option Q :=
  do r <- nth_error (co_linear c) v;
  do first <- nth_error (co_indices c) v; do last <- nth_error (co_indices c) (S v);
  if Nat.leb first last && Nat.leb last (length (co_quads c)) then Some (sum_all (slice (co_quads c) first last) r) else None.

(** ** Norms *)
Definition sum_abs (l : list Q) : Q := fold_left (fun s q => s + Qabs q) l 0.
(** The sum of squares of itm-common.hpp:1107-1117 and 1363-1381. *)
Definition sum_sq (l : list Q) : Q := fold_left (fun s q => s + q * q) l 0.
(** std::max_element: the first largest; dereferencing it is undefined when there is none *)
Definition qmax (a b : Q) : Q := if Qle_bool b a then a else b.
(** std::max_element, itm-common.hpp:1119-1127 and 1383-1398 *)
Definition max_element (l : list Q) : option Q := match l with [] => None | a :: l' => Some (fold_left qmax l' a) end.
(** std::isnormal, on rationals: different from zero (itm-common.hpp:1095-1127) *)
Definition is_normal (q : Q) : bool := negb (Qeq_bool q 0).
(** The division of the end of each norm. *)
Definition divide (c : costs) (div : Q) : costs :=
  if is_normal div
  then mk_costs (map (fun q => q / div) (co_linear c)) (map (fun d => mk_quad (qd_factor d / div) (qd_id d)) (co_quads c)) (co_indices c)
  else c.
(** make_l1_norm 1095-1105, 1344-1361; make_l2_norm 1107-1117, 1363-1381; make_loo_norm
    1119-1127, 1383-1398 *)
Definition factors (c : costs) : list Q := co_linear c ++ map qd_factor (co_quads c).
(** make_l1_norm, itm-common.hpp:1095-1105 and 1344-1361 *)
Definition l1_norm (c : costs) : costs := divide c (sum_abs (factors c)).
(** make_l2_norm, itm-common.hpp:1107-1117 and 1363-1381 (no square root in the code) *)
Definition l2_norm (c : costs) : costs := divide c (sum_sq (factors c)).
(** make_loo_norm, itm-common.hpp:1119-1127 and 1383-1398 *)
Definition loo_norm (c : costs) : option costs :=
  do m <- max_element (co_linear c);
  Some (divide c (fold_left qmax (map qd_factor (co_quads c)) m)).

(** linearize, utils.hpp:148-158 *)
Definition linearize (p1x p1y p2x p2y value : Q) : option Q :=
  if Qeq_bool (p1x - p2x) 0 then None
  else let m := (p1y - p2y) / (p1x - p2x) in
       let p := p2y - m * p2x in
       Some (inject_Z (Qceiling (m * value + p))).

Section Random.
Context {G : Type} (std_sort : forall A : Type, (A -> A -> bool) -> list A -> list A)
        (uniform : G -> Q -> Q -> Q * G).
(** operator < on doubles, here rationals (itm-common.hpp:946-962) *)
Definition qlt (a b : Q) : bool := negb (Qle_bool b a).
(** random_epsilon_unique, 946-962: the bx_expects, then one draw for each element. A
    distribution on an empty interval (max < min) is undefined. *)
Fixpoint draws (lo hi : Q) (l : list (Q * nat)) (g : G) : list (Q * nat) * G :=
  match l with
  | [] => ([], g)
  | p :: l' => let '(q, g1) := uniform g lo hi in let '(r, g2) := draws lo hi l' g1 in ((q, snd p) :: r, g2)
  end.
(** random_epsilon_unique, itm-common.hpp:946-962 *)
Definition epsilon_unique (lo hi : Q) (l : list (Q * nat)) (g : G) : option (list (Q * nat) * G) :=
  if qlt lo hi then Some (draws lo hi l g) else None.
(** 1042: distance > 1 *)
Definition long_run {A} (l : list A) : bool := match l with _ :: _ :: _ => true | _ => false end.
(** 1036-1063. [done]: the elements before begin, already changed; [run]: those from begin to
    next (excluded), which have the value [v]; [rest]: from next on. *)
Fixpoint spread (done run : list (Q * nat)) (v : Q) (rest : list (Q * nat)) (g : G) : option (list (Q * nat) * G) :=
  match rest with
  | p :: rest' =>
    if Qeq_bool (fst p) v then spread done (run ++ [p]) v rest' g
    else do (run', g') <- (if long_run run then epsilon_unique v (fst p) run g else Some (run, g));
         spread (done ++ run') [p] (fst p) rest' g'
  | [] =>
    if long_run run then
      match done with
      | [] => epsilon_unique v (v + 1) run g
      | front :: _ =>
        do hi <- linearize 0 (fst front) (inject_Z (Z.of_nat (length done))) v (inject_Z (Z.of_nat (length done + length run)));
        do (run', g') <- epsilon_unique v hi run g;
        Some (done ++ run', g')
      end
    else Some (done ++ run, g)
  end.
(** make_random_norm, 1025-1082 and 1225-1327 *)
Definition random_linear (l : list Q) (g : G) : option (list Q * G) :=
  let r := std_sort _ (fun a b => qlt (fst a) (fst b)) (combine l (seq 0 (length l))) in
  match r with
  | [] => Some ([], g)
  | p :: r' =>
    do (r, g') <- spread [] [p] (fst p) r' g;
    Some (map fst (std_sort _ (fun a b => Nat.ltb (snd a) (snd b)) r), g')
  end.
(** The default type divides by the largest linear cost, the quadratic type by the largest of
    all costs; the same when there is no quadratic element. *)
Definition random_norm (c : costs) (g : G) : option (costs * G) :=
  do (l, g') <- random_linear (co_linear c) g;
  do c' <- loo_norm (mk_costs l (co_quads c) (co_indices c));
  Some (c', g').

(** normalize_costs, 967-998 *)
Definition normalize (norm : cost_norm) (c : costs) (g : G) : option (costs * G) :=
  match norm with
  | cn_none => Some (c, g)
  | cn_random => random_norm c g
  | cn_l1 => Some (l1_norm c, g)
  | cn_l2 => Some (l2_norm c, g)
  | cn_loo => do c' <- loo_norm c; Some (c', g)
  end.
End Random.
