(** Model of the optimizer: lib/src/itm-optimizer-common.hpp, with raw_result
    (lib/src/result.hpp:34-93) and the seeds of the workers (lib/src/itm-common.hpp:1442-1485).

    The workers are threads that share the pool of solutions. Each is a sequence of steps and a
    run of the program is any interleaving of the steps of the workers. A step is one access to the pool
    or one write of a field of the pool; what a worker computes between two accesses is
    part of the step that precedes. Steps under the exclusive lock (sort) are only taken
    when no worker holds the lock shared; the lock shared does not exclude other workers.
    The interleaving is sequentially consistent: what C++ leaves undefined in data races
    (two workers writing the same field at once) is not modelled beyond that. *)
From Verif Require Import Base Problem_model Merged_model Classify_model Matrix_model Rows_model Validate_model Solver_model.
Open Scope Z_scope.

(** raw_result<Mode>: result.hpp:58-63. Doubles as in Problem_model; the initial bad_value
    is never read because the constructor of storage fills all fields used. *)
Record entry := mk_entry {
  e_x : list bool; e_value : Z; e_duration : Z; e_hash : Z; e_loop : Z; e_remaining : Z }.
(** storage: itm-optimizer-common.hpp:101-108 *)
Record pool := mk_pool {
  pl_indices : list nat; pl_data : list entry; pl_bastert : list bool; pl_random : list bool }.

(** is_better_solution, itm-common.hpp:192-200 *)
Definition better (mode : objective_type) (a b : Z) : bool :=
  match mode with minimize => a <? b | maximize => b <? a end.
(** The comparison of sort: itm-optimizer-common.hpp:429-442 *)
Definition entry_lt (mode : objective_type) (a b : entry) : bool :=
  if e_remaining a <? e_remaining b then true
  else if e_remaining a =? e_remaining b then better mode (e_value a) (e_value b) else false.

(** What a worker sends to the pool: try_update or try_advance (itm-optimizer-common.hpp:556-586). *)
Inductive event :=
| ev_update (x : list bool) (value loop : Z)
| ev_advance (x : list bool) (remaining loop : Z).

(** The parameters only used by the optimizer (core:412-446): init_kappa_improve_start,
    increase and stop, whether init_crossover_bastert_insertion is not 0 (a Bernoulli draw
    of probability 0 is never true), whether a mutation takes place (value mean and
    standard deviation not both 0), the number of solutions asked for. *)
Inductive storage_type := sto_one | sto_bound | sto_five.
(** The parameters listed above, core:412-446. *)
Record oparams (F : Type) := mk_oparams {
  op_s : sparams F; op_start : F; op_increase : F; op_stop : F; op_insertion : bool; op_mutation : bool;
  op_storage : storage_type }.
Arguments op_s {F}. Arguments op_start {F}. Arguments op_increase {F}. Arguments op_stop {F}.
Arguments op_insertion {F}. Arguments op_mutation {F}. Arguments op_storage {F}.

(** storage::crossover, private overload (359-371), on lists of booleans (C05): bit by bit
    from the first parent or from the second. *)
Fixpoint cross (mask a b : list bool) : list bool :=
  match mask, a, b with
  | m :: mask', p :: a', q :: b' => (if m then q else p) :: cross mask' a' b'
  | _, _, _ => []
  end.

(** best_solution_recorder::mutation, 519-525. x.set(i, v) is bit_array_impl::set(int, bool),
    which stores v in the first bit of a block and clears any other bit (C03). [draws]: for
    each variable, the value drawn if it is mutated. *)
Fixpoint mutation_from (i : nat) (draws : list (option bool)) (x : list bool) {struct x} : list bool :=
  match x with
  | [] => []
  | b :: x' =>
    match draws with
    | [] => x
    | None :: d' => b :: mutation_from (S i) d' x'
    | Some v :: d' => (if Nat.eqb (Nat.modulo i 64) 0 then v else false) :: mutation_from (S i) d' x'
    end
  end.

(** storage::crossover, public overload (373-421): the new assignment of the worker and the
    new pool. The draws choose among the cases. choose_a_solution (144-152) gives a rank
    between 0 and m_size; the rank m_size is past the end of m_indices (no transition). The
    overloads 390 and 402 replace the assignment of an entry of the pool. *)
Definition set_x (p : pool) (id : nat) (x : list bool) : option pool :=
  do d <- list_modify (pl_data p) id (fun e => mk_entry x (e_value e) (e_duration e) (e_hash e) (e_loop e) (e_remaining e));
  Some (mk_pool (pl_indices p) d (pl_bastert p) (pl_random p)).
(** m_data[m_indices[rank]].x, itm-optimizer-common.hpp:373-421 *)
Definition x_at (p : pool) (rank : nat) : option (nat * list bool) :=
  do id <- nth_error (pl_indices p) rank; do e <- nth_error (pl_data p) id; Some (id, e_x e).
(** The update of m_random, itm-optimizer-common.hpp:373-421. *)
Definition with_random (p : pool) (x : list bool) : pool := mk_pool (pl_indices p) (pl_data p) (pl_bastert p) x.
(** storage::crossover, itm-optimizer-common.hpp:359-421 *)
Inductive crossover (insertion : bool) : pool -> list bool -> pool -> list bool -> Prop :=
| cr_bastert p x r id y mask : insertion = true -> x_at p r = Some (id, y) -> length mask = length x ->
    crossover insertion p x p (cross mask y (pl_bastert p))
| cr_bastert_replace p x r id y p' : insertion = true -> x_at p r = Some (id, y) -> set_x p id (pl_bastert p) = Some p' ->
    crossover insertion p x p' x
| cr_random p x r id y mask rnd : insertion = true -> x_at p r = Some (id, y) -> length mask = length x -> length rnd = length x ->
    crossover insertion p x (with_random p rnd) (cross mask y rnd)
| cr_random_replace p x r id y rnd p' : insertion = true -> x_at p r = Some (id, y) -> length rnd = length x ->
    set_x (with_random p rnd) id rnd = Some p' ->
    crossover insertion p x p' x
| cr_two p x r1 id1 y1 r2 id2 y2 mask : x_at p r1 = Some (id1, y1) -> x_at p r2 = Some (id2, y2) -> id1 <> id2 -> length mask = length x ->
    crossover insertion p x p (cross mask y1 y2).

(** replace_result, 131-142: [k] is the next field to write. *)
Definition write_field (k : nat) (new old : entry) : entry :=
  match k with
  | 0%nat => mk_entry (e_x new) (e_value old) (e_duration old) (e_hash old) (e_loop old) (e_remaining old)
  | 1%nat => mk_entry (e_x old) (e_value new) (e_duration old) (e_hash old) (e_loop old) (e_remaining old)
  | 2%nat => mk_entry (e_x old) (e_value old) (e_duration new) (e_hash old) (e_loop old) (e_remaining old)
  | 3%nat => mk_entry (e_x old) (e_value old) (e_duration old) (e_hash new) (e_loop old) (e_remaining old)
  | 4%nat => mk_entry (e_x old) (e_value old) (e_duration old) (e_hash old) (e_loop new) (e_remaining old)
  | _ => mk_entry (e_x old) (e_value old) (e_duration old) (e_hash old) (e_loop old) (e_remaining new)
  end.

(** Where a worker is: at the head of its loop; with events to send; with an event accepted
    by can_be_inserted; having chosen entry [id] ([k] = 0) or writing its fields from field [k],
    the lock held shared; before the sort; returned. *)
Inductive wpc :=
| W_top
| W_events (evs : list event)
| W_pick (new : entry) (rest : list event)
| W_write (k id : nat) (new : entry) (rest : list event)
| W_sort (rest : list event)
| W_done.
(** optimize_functor (603-753): what a worker keeps between two rounds: its assignment, its
    solver, its visiting order and m_kappa_append of its thread. *)
Record worker (F G : Type) := mk_worker {
  wk_pc : wpc; wk_append : F; wk_od : order_state; wk_sv : solver F; wk_s : state F G }.
Arguments mk_worker {F G}. Arguments wk_pc {F G}. Arguments wk_append {F G}. Arguments wk_od {F G}.
Arguments wk_sv {F G}. Arguments wk_s {F G}.
(** The shared pool and the threads of optimize_problem, itm-optimizer-common.hpp:776-866. *)
Record sys (F G : Type) := mk_sys { sy_pool : pool; sy_workers : list (worker F G) }.
Arguments mk_sys {F G}. Arguments sy_pool {F G}. Arguments sy_workers {F G}.
(** A worker inside replace_result holds m_indices_mutex shared; it does not yet when it has
    only chosen the entry to replace ([k] = 0). *)
Definition holds_lock {F G} (w : worker F G) : bool := match wk_pc w with W_write (S _) _ _ _ => true | _ => false end.

Section Pool.
Context {F G : Type} (fo : fops F) (ro : rops G)
        (std_sort : forall A : Type, (A -> A -> bool) -> list A -> list A)
        (hash : list bool -> Z).
Variables (mode : objective_type) (obj : objective) (cs : list merged).

(** sort, 424-443. The comparison reads m_data at both indices, which are checked to be in
    bounds beforehand. *)
Definition entry0 : entry := mk_entry [] 0 0 0 0 0.
(** The comparison of storage::sort, itm-optimizer-common.hpp:424-443. *)
Definition pool_lt (data : list entry) (i j : nat) : bool := entry_lt mode (nth i data entry0) (nth j data entry0).
(** storage::sort, itm-optimizer-common.hpp:424-443 *)
Definition pool_sort (p : pool) : option pool :=
  if all_below (length (pl_data p)) (pl_indices p)
  then Some (mk_pool (std_sort _ (pool_lt (pl_data p)) (pl_indices p)) (pl_data p) (pl_bastert p) (pl_random p))
  else None.

(** The constructor of storage, 204-226, from the initial assignments [xs]: hash, value and number of rows violated. *)
Fixpoint row_value (x : list bool) (l : list felem) (sum : Z) : option Z :=
  match l with
  | [] => Some sum
  | e :: l' => do b <- nth_error x (f_var e); row_value x l' (if b then sum + f_factor e else sum)
  end.
(** itm-optimizer-common.hpp:204-221, the number of rows violated *)
Fixpoint count_unsatisfied (x : list bool) (l : list merged) (n : Z) : option Z :=
  match l with
  | [] => Some n
  | c :: l' => do sum <- row_value x (m_elements c) 0;
               count_unsatisfied x l' (if (m_min c <=? sum) && (sum <=? m_max c) then n else n + 1)
  end.
(** itm-optimizer-common.hpp:204-221, one entry *)
Definition initial_entry (x : list bool) : option entry :=
  do v <- results obj x; do r <- count_unsatisfied x cs 0; Some (mk_entry x v 0 (hash x) 0 r).
(** itm-optimizer-common.hpp:204-221, the loop *)
Fixpoint initial_entries (xs : list (list bool)) : option (list entry) :=
  match xs with
  | [] => Some []
  | x :: xs' => do e <- initial_entry x; do l <- initial_entries xs'; Some (e :: l)
  end.
(** The end of the constructor of storage, itm-optimizer-common.hpp:204-226. *)
Definition make_pool (bastert : list bool) (xs : list (list bool)) : option pool :=
  do d <- initial_entries xs;
  pool_sort (mk_pool (seq 0 (length xs)) d bastert (repeat false (length bastert))).

(** The linear costs of default_cost_type (itm-common.hpp:1006-1017) and quadratic_cost_type (1164-1177). *)
Fixpoint linear_cost (v : nat) (l : list oelem) (acc : F) : F :=
  match l with
  | [] => acc
  | e :: l' => linear_cost v l' (if Nat.eqb (o_var e) v then fl_add fo acc (fl_of_Z fo (o_factor e)) else acc)
  end.
(** The loop of 1400-1411: the factors of all the products [v] is in (the arrays are built by 1185-1211). *)
Fixpoint product_costs (v : nat) (l : list qelem) (acc : F) : F :=
  match l with
  | [] => acc
  | e :: l' => product_costs v l' (if Nat.eqb (q_vara e) v || Nat.eqb (q_varb e) v
                                   then fl_add fo acc (fl_of_Z fo (q_factor e)) else acc)
  end.
(** Cost::operator[], on the indices of the array. *)
Definition original_cost (n v : nat) : option F :=
  if Nat.ltb v n then Some (product_costs v (o_qelements obj) (linear_cost v (o_elements obj) (fl_of_Z fo 0))) else None.
(** init_with_random, itm-common.hpp:268-281 *)
Fixpoint random_bits (n : nat) (g : G) : list bool * G :=
  match n with
  | O => ([], g)
  | S n' => let '(b, g) := rg_bernoulli ro g in let '(x, g) := random_bits n' g in (b :: x, g)
  end.
(** 181-189: entries i to i + k - 1. The probability of an inversion is 0 for entry 0. *)
Fixpoint first_half (k i : nat) (bastert : list bool) (g : G) : list (list bool) * G :=
  match k with
  | O => ([], g)
  | S k' => let '(y, g) := mutate ro bastert g in
            let '(l, g) := first_half k' (S i) bastert g in ((if Nat.eqb i 0 then bastert else y) :: l, g)
  end.
(** init_with_pre_solve, itm-common.hpp:284-374, for two arrays *)
Fixpoint pre_solve_both (c0 : nat -> option F) (l : list merged) (xp xo : list bool) (g : G)
  : option (list bool * list bool * G) :=
  match l with
  | [] => Some (xp, xo, g)
  | c :: l' =>
    let '(go, g) := rg_bernoulli ro g in
    if go then
      do R <- pre_costs c0 (m_elements c);
      let '(R, g) := rg_shuffle ro _ g R in
      let R := std_sort _ (fun a b => match mode with
                                      | minimize => fl_lt fo (fst a) (fst b)
                                      | maximize => fl_lt fo (fst b) (fst a) end) R in
      do xp' <- set_prefix R (pessimistic R 0 0 (m_min c) (m_max c)) xp;
      do xo' <- set_prefix R (optimistic fo mode R 0 0 (m_min c) (m_max c) None) xo;
      pre_solve_both c0 l' xp' xo' g
    else pre_solve_both c0 l' xp xo g
  end.
(** 191-202: the [k] entries of the second half, two by two. When their number is odd, the last one keeps the value false
    given by 176-177. *)
Fixpoint second_half (k n : nat) (g : G) : option (list (list bool) * G) :=
  match k with
  | O => Some ([], g)
  | 1%nat => Some ([repeat false n], g)
  | S (S k') =>
    let '(xp, g) := random_bits n g in
    let '(xo, g) := random_bits n g in
    do (xp, xo, g) <- pre_solve_both (original_cost n) cs xp xo g;
    do (l, g) <- second_half k' n g;
    Some (xp :: xo :: l, g)
  end.
(** 176-202: m_bastert and the assignments of the entries *)
Definition population (size n : nat) (g : G) : option (list bool * list (list bool) * G) :=
  do b <- init_bastert fo mode (original_cost n) n 0 (repeat false n);
  let '(l1, g) := first_half (size / 2) 0 b g in
  do (l2, g) <- second_half (size - size / 2) n g;
  Some (b, l1 ++ l2, g).
(** The constructor of storage, 162-226. *)
Definition make_storage (size n : nat) (g : G) : option (pool * G) :=
  do (b, xs, g) <- population size n g; do p <- make_pool b xs; Some (p, g).

(** ** A round of a worker: 658-751 *)
(** The flag stop_task is set by another thread: what a worker reads is arbitrary, drawn like
    the clock. *)
Definition stopped (s : state F G) : bool * state F G :=
  let '(b, g) := rg_time_out ro (s_g s) in (b, with_g s g).

(** 669-696: the best number of violated rows met, the events and the state *)
Fixpoint find_loop (fuel : nat) (sv : solver F) (pa : sparams F) (i best_remaining : Z) (kappa : F)
  (od : order_state) (s : state F G) : run_result (Z * list event * order_state * state F G) :=
  match fuel with
  | O => OutOfFuel
  | S fuel' =>
    let '(stop, s) := stopped s in
    if stop || (i =? pa_limit pa) then Finished (best_remaining, [], od, s)
    else
      match run fo ro std_sort sv None kappa (pa_delta pa) (pa_theta pa) od s with
      | None => Aborted
      | Some (remaining, od, s) =>
        if remaining =? 0 then
          match results obj (s_x s) with
          | None => Aborted
          | Some v => Finished (0, [ev_update (s_x s) v i], od, s)
          end
        else
          let best_remaining := Z.min remaining best_remaining in
          let kappa := if pa_w pa <? i then next_kappa fo pa (sv_m sv) kappa remaining else kappa in
          if fl_lt fo (pa_kappa_max pa) kappa then Finished (best_remaining, [], od, s)
          else find_loop fuel' sv pa (i + 1) best_remaining kappa od s
      end
  end.
(** 727-750: [k] iterations left *)
Fixpoint push_runs (k : nat) (sv : solver F) (pa : sparams F) (push iter : Z) (kappa : F) (od : order_state) (s : state F G)
  : option (list event * order_state * state F G) :=
  match k with
  | O => Some ([], od, s)
  | S k' =>
    let '(stop, s) := stopped s in
    if stop then Some ([], od, s)
    else
      do (remaining, od, s) <- run fo ro std_sort sv None kappa (pa_delta pa) (pa_theta pa) od s;
      if remaining =? 0 then
        do v <- results obj (s_x s);
        Some ([ev_update (s_x s) v (- push * pa_pushing_iteration_limit pa - iter - 1)], od, s)
      else
        let kappa := if pa_w pa <? iter then next_kappa fo pa (sv_m sv) kappa remaining else kappa in
        if fl_lt fo (pa_kappa_max pa) kappa then Some ([], od, s)
        else push_runs k' sv pa push (iter + 1) kappa od s
  end.
(** 704-751: [k] pushes left *)
Fixpoint pushes (k : nat) (sv : solver F) (pa : sparams F) (push : Z) (kappa_start : F) (od : order_state) (s : state F G)
  : option (list event * order_state * state F G) :=
  match k with
  | O => Some ([], od, s)
  | S k' =>
    let '(stop, s) := stopped s in
    if stop then Some ([], od, s)
    else
      do (remaining, od, s) <- run fo ro std_sort sv (Some (pa_amplifier pa)) (pa_pushing_k_factor pa) (pa_delta pa) (pa_theta pa) od s;
      do ev <- (if remaining =? 0
                then do v <- results obj (s_x s); Some [ev_update (s_x s) v (- push * pa_pushing_iteration_limit pa - 1)]
                else Some []);
      do (ev1, od, s) <- push_runs (Z.to_nat (pa_pushing_iteration_limit pa)) sv pa push 0 kappa_start od s;
      do (ev2, od, s) <- pushes k' sv pa (push + 1) kappa_start od s;
      Some (ev ++ ev1 ++ ev2, od, s)
  end.
(** 663-751, after reinit *)
Definition round (fuel : nat) (sv : solver F) (pa : sparams F) (kappa : F) (od : order_state) (s : state F G)
  : run_result (list event * order_state * state F G) :=
  match order_init sv (s_x s) od with
  | None => Aborted
  | Some od =>
    match find_loop fuel sv pa 0 int_max kappa od s with
    | Aborted => Aborted
    | OutOfFuel => OutOfFuel
    | Finished (best_remaining, ev, od, s) =>
      if 0 <? best_remaining then Finished (ev ++ [ev_advance (s_x s) best_remaining (pa_limit pa)], od, s)
      else
        match pushes (Z.to_nat (pa_pushes_limit pa)) sv pa 0 kappa od s with
        | None => Aborted
        | Some (ev', od, s) => Finished (ev ++ ev', od, s)
        end
    end
  end.

(** ** reinit, 528-554 *)
(** The new pool, the new assignment, m_kappa_append and kappa. *)
Inductive reinit (op : oparams F) : pool -> F -> list bool -> pool -> F -> F -> list bool -> Prop :=
| reinit_improve p a x draws x' : fl_lt fo a (op_stop op) = true ->
    x' = (if op_mutation op then mutation_from 0 draws x else x) ->
    let a' := fl_add fo a (op_increase op) in
    reinit op p a x p a'
      (fl_add fo (pa_kappa_min (op_s op)) (fl_mul fo (fl_sub fo (pa_kappa_max (op_s op)) (pa_kappa_min (op_s op))) a')) x'
| reinit_cross p a x p' y draws x' : fl_lt fo a (op_stop op) = false ->
    crossover (op_insertion op) p x p' y ->
    x' = (if op_mutation op then mutation_from 0 draws y else y) ->
    reinit op p a x p' (op_start op) (pa_kappa_min (op_s op)) x'.

(** can_be_inserted, 302-326 *)
Definition can_be_inserted (p : pool) (ev : event) : bool :=
  match ev with
  | ev_advance x r _ => forallb (fun e => negb ((e_remaining e =? r) && (e_hash e =? hash x))) (pl_data p)
  | ev_update x v _ => forallb (fun e => negb ((e_remaining e =? 0) && (e_value e =? v) && (e_hash e =? hash x))) (pl_data p)
  end.
(** The entry try_update and try_advance ask to write: 556-586 and 240-300. The duration is
    read on the clock. *)
Definition entry_of (d : Z) (ev : event) : option entry :=
  match ev with
  | ev_update x v loop => Some (mk_entry x v d (hash x) loop 0)
  | ev_advance x r loop => do v <- results obj x; Some (mk_entry x v d (hash x) loop r)
  end.

(** ** Steps *)
Definition with_pc (w : worker F G) (pc : wpc) : worker F G := mk_worker pc (wk_append w) (wk_od w) (wk_sv w) (wk_s w).
(** The assignment of x by the optimizer, itm-optimizer-common.hpp:603-753. *)
Definition with_x (s : state F G) (x : list bool) : state F G := mk_state x (s_P s) (s_pi s) (s_R s) (s_g s).
(** A step of one worker, given whether the lock is free. *)
Inductive wstep (op : oparams F) (free : bool) : pool -> worker F G -> pool -> worker F G -> Prop :=
| ws_stop p w : wk_pc w = W_top -> wstep op free p w p (with_pc w W_done)
| ws_round p w p' a kappa x fuel evs od s : wk_pc w = W_top ->
    reinit op p (wk_append w) (s_x (wk_s w)) p' a kappa x ->
    round fuel (wk_sv w) (op_s op) kappa (wk_od w) (with_x (wk_s w) x) = Finished (evs, od, s) ->
    wstep op free p w p' (mk_worker (W_events evs) a od (wk_sv w) s)
| ws_end p w : wk_pc w = W_events [] -> wstep op free p w p (with_pc w W_top)
| ws_refused p w ev rest : wk_pc w = W_events (ev :: rest) -> can_be_inserted p ev = false ->
    wstep op free p w p (with_pc w (W_events rest))
| ws_accepted p w ev rest d new : wk_pc w = W_events (ev :: rest) -> can_be_inserted p ev = true -> entry_of d ev = Some new ->
    wstep op free p w p (with_pc w (W_pick new rest))
(** insert, 257 and 290 with choose_a_bad_solution (139-142) *)
| ws_pick p w new rest r id : wk_pc w = W_pick new rest ->
    (length (pl_data p) / 5 <= r < length (pl_data p))%nat -> nth_error (pl_indices p) r = Some id ->
    wstep op free p w p (with_pc w (W_write 0 id new rest))
| ws_write p w k id new rest data : wk_pc w = W_write k id new rest ->
    list_modify (pl_data p) id (write_field k new) = Some data ->
    wstep op free p w (mk_pool (pl_indices p) data (pl_bastert p) (pl_random p))
      (with_pc w (if Nat.ltb k 5 then W_write (S k) id new rest else W_sort rest))
| ws_sort p w rest p' : wk_pc w = W_sort rest -> free = true -> pool_sort p = Some p' ->
    wstep op free p w p' (with_pc w (W_events rest)).
(** std::unique_lock on the pool: a thread enters only when no other holds it (itm-optimizer-common.hpp:240-443). *)
Definition lock_free (l : list (worker F G)) : bool := forallb (fun w => negb (holds_lock w)) l.
(** One step of one thread of itm-optimizer-common.hpp:603-753. *)
Inductive step (op : oparams F) : sys F G -> sys F G -> Prop :=
| step_worker s i w p' w' l : nth_error (sy_workers s) i = Some w ->
    wstep op (lock_free (sy_workers s)) (sy_pool s) w p' w' -> list_upd (sy_workers s) i w' = Some l ->
    step op s (mk_sys p' l).
End Pool.

(** optimize_problem, 776-866: the pool, the workers and the run until all have returned. A
    worker starts with the assignment 0 (637), its own engine and its own normalised costs [c]. *)
Definition starts_as {F G} (fo : fops F) (op : oparams F) (cl : solver_class) (cs : list merged) (n : nat) (mode : objective_type)
  (c : nat -> list bool -> option F) (w : worker F G) : Prop :=
  exists after g s, make_solver fo cl cs n c mode after (repeat false n) g = Ok (wk_sv w, s) /\
    w = mk_worker W_top (fl_of_Z fo 0) (make_order (pa_order (op_s op)) n) (wk_sv w) s.
(** The same for any normalised costs. *)
Definition starts {F G} (fo : fops F) (op : oparams F) (cl : solver_class) (cs : list merged) (n : nat) (mode : objective_type)
  (w : worker F G) : Prop := exists c, starts_as fo op cl cs n mode c w.
(** The first state of optimize_problem, 776-832, when the costs are not normalised (cost_norm none, a linear objective): the
    pool made by the constructor and the threads ready. *)
Definition begins {F G} (fo : fops F) (ro : rops G) (std_sort : forall A : Type, (A -> A -> bool) -> list A -> list A)
  (hash : list bool -> Z) (pb : problem) (cs : list merged) (op : oparams F) (cl : solver_class) (size : nat) (s : sys F G) : Prop :=
  let n := length (v_values (p_vars pb)) in
  o_qelements (p_objective pb) = [] /\
  (exists g g', make_storage fo ro std_sort hash (p_type pb) (p_objective pb) cs size n g = Some (sy_pool s, g')) /\
  (forall w, In w (sy_workers s) -> starts_as fo op cl cs n (p_type pb) (fun v _ => original_cost fo (p_objective pb) n v) w).
(** pool.join of all threads, itm-optimizer-common.hpp:776-866. *)
Definition returned {F G} (s : sys F G) : Prop := forall w, In w (sy_workers s) -> wk_pc w = W_done.

(** ** The result: 868-905 *)
(** get_worst, 328-339 *)
Fixpoint worst_from (data : list entry) (prev : nat) (l : list nat) : option entry :=
  match l with
  | [] => nth_error data prev
  | i :: l' => do e <- nth_error data i; if e_remaining e =? 0 then worst_from data i l' else Some e
  end.
(** itm-optimizer-common.hpp:328-339 *)
Definition get_worst (p : pool) : option entry :=
  match pl_indices p with [] => None | i :: l => worst_from (pl_data p) i l end.
(** get_best, 356-359 *)
Definition get_best (p : pool) (i : nat) : option entry := do k <- nth_error (pl_indices p) i; nth_error (pl_data p) k.
(** convert, result.hpp:128-138 *)
Definition convert (n : nat) (e : entry) : option (list bool * Z) :=
  if Nat.leb n (length (e_x e)) then Some (firstn n (e_x e), e_value e) else None.
(** itm-optimizer-common.hpp:868-914, the loop over the solutions kept *)
Fixpoint best_solutions (p : pool) (n i k : nat) : option (list (list bool * Z)) :=
  match k with
  | O => Some []
  | S k' => do e <- get_best p i; do s <- convert n e; do l <- best_solutions p n (S i) k'; Some (s :: l)
  end.
(** The fields of result (core:696-748) filled by itm-optimizer-common.hpp:840-914. *)
Record oresult := mk_oresult {
  or_status : result_status; or_remaining : Z; or_duration : Z; or_loop : Z; or_solutions : list (list bool * Z);
  or_variables : nat; or_constraints : nat }.
(** itm-optimizer-common.hpp:840-914 *)
Definition final_result (st : storage_type) (n m : nat) (p : pool) : option oresult :=
  do first <- get_best p 0;
  do sols <- match st with
             | sto_one => best_solutions p n 0 1
             | sto_bound => do a <- convert n first; do w <- get_worst p; do b <- convert n w; Some [a; b]
             | sto_five => best_solutions p n 0 5
             end;
  Some (mk_oresult (if e_remaining first =? 0 then st_success else st_time_limit_reached)
          (e_remaining first) (e_duration first) (e_loop first) sols n m).

(** ** generate_seed, itm-common.hpp:1459-1485 *)
(** [draw k]: the k-th value of the distribution. The array and the number of values drawn.
    The inner loop (1473-1480) may not end: [fuel]. *)
Section Seeds.
Variable draw : nat -> Z.
(** itm-common.hpp:1473-1480 *)
Fixpoint seed_loop (fuel : nat) (i j : nat) (ret : list Z) (k : nat) : run_result (list Z * nat) :=
  match fuel with
  | O => OutOfFuel
  | S fuel' =>
    match j with
    | O => Finished (ret, k)
    | S j' =>
      match nth_error ret j, nth_error ret i with
      | Some a, Some b =>
        if a =? b then
          match list_upd ret j (draw k) with
          | Some ret' => seed_loop fuel' i (i - 1) ret' (S k)
          | None => Aborted
          end
        else seed_loop fuel' i j' ret k
      | _, _ => Aborted
      end
    end
  end.
(** itm-common.hpp:1465-1482, the loop over the threads *)
Fixpoint seeds_from (fuel : nat) (i n : nat) (ret : list Z) (k : nat) : run_result (list Z * nat) :=
  match n with
  | O => Finished (ret, k)
  | S n' =>
    match list_upd ret i (draw k) with
    | None => Aborted
    | Some ret =>
      match seed_loop fuel i (i - 1) ret (S k) with
      | Finished (ret, k) => seeds_from fuel (S i) n' ret k
      | Aborted => Aborted
      | OutOfFuel => OutOfFuel
      end
    end
  end.
(** generate_seed, itm-common.hpp:1457-1486 *)
Definition generate_seed (fuel threads : nat) : run_result (list Z) :=
  match threads with
  | O => Aborted  (* ret[0] is past the end *)
  | S n =>
    match list_upd (repeat 0 threads) 0 (draw 0) with
    | None => Aborted
    | Some ret => match seeds_from fuel 1 n ret 1 with
                  | Finished (ret, _) => Finished ret
                  | Aborted => Aborted
                  | OutOfFuel => OutOfFuel
                  end
    end
  end.
End Seeds.
