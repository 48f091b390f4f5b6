(** Model of lib/src/preprocessor.cpp. Logging and the debug dump "preprocessed.lp"
    (lines 711-712) are left out. *)
From Verif Require Import Base Problem_model Classify_model.
Open Scope Z_scope.

(** std::unordered_map<int, bool>: [vars.emplace] ignores an existing key, [vars.find]
    reads; lines 147, 365, 356. Insertion order is irrelevant in the code, here it is kept. *)
Definition vmap := list (nat * bool).
(** std::unordered_map::find, preprocessor.cpp:356 *)
Fixpoint vfind (m : vmap) (v : nat) : option bool :=
  match m with
  | [] => None
  | (u, b) :: m' => if Nat.eqb u v then Some b else vfind m' v
  end.
(** std::unordered_map::emplace, preprocessor.cpp:147 and 365 *)
Definition vemplace (m : vmap) (v : nat) (b : bool) : vmap :=
  match vfind m v with Some _ => m | None => m ++ [(v, b)] end.

(** pp_lifo, lines 94-133. The head of the list is data.back(). *)
Definition lifo := list (nat * bool).
(** pp_lifo::emplace, preprocessor.cpp:94-133 *)
Definition lifo_emplace (l : lifo) (v : nat) (b : bool) : lifo :=
  match vfind l v with Some _ => l | None => (v, b) :: l end.

(** lines 43-50: every factor > 0 *)
Definition is_all_factor_ge_than_zero (c : constraint) : bool :=
  forallb (fun e => negb (f_factor e <=? 0)) (c_elements c).
(** lines 64-72 *)
Definition sum_factor (c : constraint) : Z :=
  fold_left (fun init e => init + f_factor e) (c_elements c) 0.

(** The state of class preprocessor, lines 144-155. The three counters of unaffected
    variables are lists indexed like the constraints of the problem. *)
Record pstate := mk_pstate {
  s_vars : vmap; s_lifo : lifo; s_equal : list nat; s_greater : list nat; s_less : list nat }.

(** One of the three lists of pp_variable_access for every variable, lines 74-79 and
    589-604. [None]: a variable index is out of range. *)
Fixpoint cache_elems (l : list felem) (i : nat) (cache : list (list nat)) : option (list (list nat)) :=
  match l with
  | [] => Some cache
  | e :: l' => do cache' <- list_modify cache (f_var e) (fun k => k ++ [i]); cache_elems l' i cache'
  end.
(** preprocessor.cpp:589-604, the loop over the constraints of one operator *)
Fixpoint cache_csts (l : list constraint) (i : nat) (cache : list (list nat)) : option (list (list nat)) :=
  match l with
  | [] => Some cache
  | c :: l' => do cache' <- cache_elems (c_elements c) i cache; cache_csts l' (S i) cache'
  end.
(** preprocessor.cpp:589-604, from empty lists *)
Definition make_cache (n : nat) (l : list constraint) : option (list (list nat)) :=
  cache_csts l 0 (repeat [] n).
(** pp_variable_access for every variable, preprocessor.cpp:74-79 *)
Record caches := mk_caches {
  in_equal : list (list nat); in_greater : list (list nat); in_less : list (list nat) }.
(** preprocessor.cpp:580-604 *)
Definition make_caches (pb : problem) : option caches :=
  let n := length (v_values (p_vars pb)) in
  do e <- make_cache n (p_equal pb);
  do g <- make_cache n (p_greater pb);
  do l <- make_cache n (p_less pb);
  Some (mk_caches e g l).

(** lines 157-188. The result is the element that remains, if any, and the value left for it. *)
Fixpoint reduce_loop (vars : vmap) (l : list felem) (res : Z) (rem : option felem)
  : outcome (option felem * Z) :=
  match l with
  | [] => Ok (rem, res)
  | e :: l' =>
    match vfind vars (f_var e) with
    | None => match rem with
              | None => reduce_loop vars l' res (Some e)
              | Some _ => Crash (* bx_assert, line 171 *)
              end
    | Some b => reduce_loop vars l' (res + -1 * (f_factor e * if b then 1 else 0)) rem
    end
  end.
(** preprocessor.cpp:157-188 *)
Definition reduce (vars : vmap) (c : constraint) : outcome (option felem * Z) :=
  reduce_loop vars (c_elements c) (c_value c) None.

(** The comparisons of preprocessor.cpp:190-263. *)
Definition compare_op (op : operator_type) (a r : Z) : bool :=
  match op with op_equal => a =? r | op_greater => a >=? r | op_less => a <=? r end.

(** lines 190-263 (the three functions differ by the comparison only). [None] is the
    (-1, false) result: nothing to assign. *)
Definition reduce_constraint (op : operator_type) (vars : vmap) (c : constraint)
  : outcome (option (nat * bool)) :=
  let! (rem, result) := reduce vars c in
  match rem with
  | None => Ok None
  | Some e =>
    let affect_0 := compare_op op (f_factor e * 0) result in
    let affect_1 := compare_op op (f_factor e * 1) result in
    if affect_0 && affect_1 then Ok None
    else if affect_0 then Ok (Some (f_var e, false))
    else if affect_1 then Ok (Some (f_var e, true))
    else Crash (* bx_reach *)
  end.

(** lifo.emplace when there is a variable to assign, preprocessor.cpp:190-263 *)
Definition lifo_emplace_opt (l : lifo) (v : option (nat * bool)) : lifo :=
  match v with Some (i, b) => lifo_emplace l i b | None => l end.

(** lines 372-390, 392-410, 412-429: the body of affects() for one operator. *)
Fixpoint affect_csts (op : operator_type) (csts : list constraint) (vars : vmap) (idx : list nat)
  (cnt : list nat) (lf : lifo) : outcome (list nat * lifo) :=
  match idx with
  | [] => Ok (cnt, lf)
  | i :: idx' =>
    let! k := of_opt (nth_error cnt i) in
    if Nat.eqb k 0 then affect_csts op csts vars idx' cnt lf
    else
      let k' := Nat.pred k in
      if Nat.eqb k' 1 then
        let! c := of_opt (nth_error csts i) in
        let! v := reduce_constraint op vars c in
        let! cnt' := of_opt (list_upd cnt i 0%nat) in
        affect_csts op csts vars idx' cnt' (lifo_emplace_opt lf v)
      else
        let! cnt' := of_opt (list_upd cnt i k') in
        affect_csts op csts vars idx' cnt' lf
  end.

(** lines 361-431, one iteration of the loop: pop, then the three loops. *)
Definition affect_step (pb : problem) (ch : caches) (s : pstate) (v : nat) (b : bool) (lf : lifo)
  : outcome pstate :=
  let vars := vemplace (s_vars s) v b in
  let! ie := of_opt (nth_error (in_equal ch) v) in
  let! (eq, lf1) := affect_csts op_equal (p_equal pb) vars ie (s_equal s) lf in
  let! ig := of_opt (nth_error (in_greater ch) v) in
  let! (gr, lf2) := affect_csts op_greater (p_greater pb) vars ig (s_greater s) lf1 in
  let! il := of_opt (nth_error (in_less ch) v) in
  let! (le, lf3) := affect_csts op_less (p_less pb) vars il (s_less s) lf2 in
  Ok (mk_pstate vars lf3 eq gr le).

(** lines 361-431. [Ok None]: the loop did not end within [fuel] iterations. *)
Fixpoint affects (fuel : nat) (pb : problem) (ch : caches) (s : pstate) : outcome (option pstate) :=
  match fuel with
  | O => Ok None
  | S fuel' =>
    match s_lifo s with
    | [] => Ok (Some s)
    | (v, b) :: lf => let! s' := affect_step pb ch s v b lf in affects fuel' pb ch s'
    end
  end.

(** lines 267-280 *)
Definition any_pos (cnt : list nat) (idx : list nat) : option bool :=
  fold_right (fun i acc => do k <- nth_error cnt i; do r <- acc; Some (Nat.ltb 0 k || r)) (Some false) idx.
(** preprocessor.cpp:267-280 *)
Definition is_unused_variable (ch : caches) (s : pstate) (v : nat) : option bool :=
  do ie <- nth_error (in_equal ch) v; do e <- any_pos (s_equal s) ie;
  do ig <- nth_error (in_greater ch) v; do g <- any_pos (s_greater s) ig;
  do il <- nth_error (in_less ch) v; do l <- any_pos (s_less s) il;
  Some (negb (e || g || l)).

(** to_merge_with_objective_function, lines 135-139 *)
Record merge_obj := mk_merge_obj { mo_elements : list oelem; mo_value : Z }.

(** Multiplication of a double by 1/2 (exact on doubles); costs are integers in the
    model, so this is exact for even costs. *)
Definition half (z : Z) : Z := z / 2.

(** lines 305-328, for the quadratic terms of variable [i] *)
Definition bqp_elem (t : objective_type) (i : nat) (q : qelem) (mo : merge_obj) : merge_obj :=
  if Nat.eqb i (q_vara q) || Nat.eqb i (q_varb q) then
    let value := match t with maximize => 0 <? q_factor q | minimize => q_factor q <? 0 end in
    if value then
      if Nat.eqb (q_vara q) (q_varb q)
      then mk_merge_obj (mo_elements mo) (mo_value mo + half (q_factor q))
      else mk_merge_obj
             (mo_elements mo ++ [mk_oelem (half (q_factor q))
                                  (if Nat.eqb (q_vara q) i then q_varb q else q_vara q)])
             (mo_value mo)
    else mo
  else mo.

(** lines 289-331 *)
Definition make_lp_from_bqp_objective (pb : problem) (ch : caches) (s : pstate) : option merge_obj :=
  fold_left (fun acc i =>
      do mo <- acc;
      match vfind (s_vars s) i with
      | Some _ => Some mo
      | None => do u <- is_unused_variable ch s i;
                Some (if u then fold_left (fun m q => bqp_elem (p_type pb) i q m)
                                          (o_qelements (p_objective pb)) mo
                      else mo)
      end)
    (seq 0 (length (in_equal ch))) (Some (mk_merge_obj [] 0)).

(** lines 341-354 *)
Definition unused_value (pb : problem) (i : nat) : bool :=
  match find (fun e => Nat.eqb i (o_var e)) (o_elements (p_objective pb)) with
  | Some e => match p_type pb with maximize => 0 <? o_factor e | minimize => o_factor e <? 0 end
  | None => true
  end.

(** lines 337-359 *)
Fixpoint remove_unused (pb : problem) (ch : caches) (s : pstate) (is : list nat) (vars : vmap) : option vmap :=
  match is with
  | [] => Some vars
  | i :: is' =>
    match vfind vars i with
    | Some _ => remove_unused pb ch s is' vars
    | None => do u <- is_unused_variable ch s i;
              remove_unused pb ch s is' (if u then vars ++ [(i, unused_value pb i)] else vars)
    end
  end.
(** preprocessor.cpp:337-359, the loop *)
Definition try_remove_unused_variable (pb : problem) (ch : caches) (s : pstate) : option pstate :=
  do vars <- remove_unused pb ch s (seq 0 (length (in_equal ch))) (s_vars s);
  Some (mk_pstate vars (s_lifo s) (s_equal s) (s_greater s) (s_less s)).

(** lines 440-452 *)
Definition try_affect_bounded_variable (pb : problem) (lf : lifo) : lifo :=
  fold_left (fun lf iv => let '(i, v) := iv in
               if v_min v =? v_max v then lifo_emplace lf i (negb (v_max v =? 0)) else lf)
    (combine (seq 0 (length (v_values (p_vars pb)))) (v_values (p_vars pb))) lf.

(** preprocessor.cpp:440-452, the loop over the elements *)
Definition emplace_all (l : list felem) (b : bool) (lf : lifo) : lifo :=
  fold_left (fun lf e => lifo_emplace lf (f_var e) b) l lf.

(** lines 457-487, 491-522, 526-555: one constraint; [k] is its counter. *)
Definition affect_unit (op : operator_type) (vars : vmap) (c : constraint) (k : nat) (lf : lifo)
  : outcome (nat * lifo) :=
  if Nat.eqb k 1 then
    let! v := reduce_constraint op vars c in Ok (0%nat, lifo_emplace_opt lf v)
  else if is_all_factor_ge_than_zero c then
    match op with
    | op_equal =>
      if (sum_factor c =? c_value c) || (c_value c =? 0)
      then Ok (0%nat, emplace_all (c_elements c) (negb (c_value c =? 0)) lf)
      else Ok (k, lf)
    | op_greater =>
      if sum_factor c =? c_value c then Ok (0%nat, emplace_all (c_elements c) true lf)
      else if c_value c =? 0 then Ok (0%nat, lf)
      else Ok (k, lf)
    | op_less =>
      if c_value c <=? 0 then Ok (0%nat, emplace_all (c_elements c) false lf)
      else if sum_factor c =? c_value c then Ok (0%nat, lf)
      else Ok (k, lf)
    end
  else Ok (k, lf).
(** preprocessor.cpp:457-555, the loops over the constraints *)
Fixpoint affect_units (op : operator_type) (vars : vmap) (csts : list constraint) (cnt : list nat) (lf : lifo)
  : outcome (list nat * lifo) :=
  match csts, cnt with
  | [], _ => Ok ([], lf)
  | c :: csts', k :: cnt' =>
    let! (k', lf') := affect_unit op vars c k lf in
    let! (cnt'', lf'') := affect_units op vars csts' cnt' lf' in
    Ok (k' :: cnt'', lf'')
  | _ :: _, [] => Crash
  end.
(** lines 454-557 *)
Definition try_affect_variable (pb : problem) (s : pstate) : outcome pstate :=
  let! (eq, lf1) := affect_units op_equal (s_vars s) (p_equal pb) (s_equal s) (s_lifo s) in
  let! (gr, lf2) := affect_units op_greater (s_vars s) (p_greater pb) (s_greater s) lf1 in
  let! (le, lf3) := affect_units op_less (s_vars s) (p_less pb) (s_less s) lf2 in
  Ok (mk_pstate (s_vars s) lf3 eq gr le).

(** lines 559-578, after vars.clear() and lifo.clear() *)
Definition lengths (l : list constraint) : list nat := map (fun c => length (c_elements c)) l.
(** preprocessor.cpp:559-578 *)
Definition init_state (pb : problem) : pstate :=
  mk_pstate [] [] (lengths (p_equal pb)) (lengths (p_greater pb)) (lengths (p_less pb)).

(** lines 661-670: [None] is the index -1. *)
Definition mapping := list (option nat * bool).
(** preprocessor.cpp:661-670, the loop *)
Fixpoint make_mapping (vars : vmap) (is : list nat) (c : nat) : mapping :=
  match is with
  | [] => []
  | i :: is' => match vfind vars i with
                | None => (Some c, false) :: make_mapping vars is' (S c)
                | Some b => (None, b) :: make_mapping vars is' c
                end
  end.

(** lines 726-735 *)
Fixpoint copy_linear (m : mapping) (l : list oelem) (value : Z) : option (list oelem * Z) :=
  match l with
  | [] => Some ([], value)
  | e :: l' =>
    do mi <- nth_error m (o_var e);
    match fst mi with
    | None => copy_linear m l' (if snd mi then value + o_factor e else value)
    | Some j => do r <- copy_linear m l' value; Some (mk_oelem (o_factor e) j :: fst r, snd r)
    end
  end.
(** lines 737-758: linear elements created, quadratic elements kept, new value *)
Fixpoint copy_quadratic (m : mapping) (l : list qelem) (value : Z)
  : option (list oelem * list qelem * Z) :=
  match l with
  | [] => Some ([], [], value)
  | q :: l' =>
    do va <- nth_error m (q_vara q);
    do vb <- nth_error m (q_varb q);
    match fst va, fst vb with
    | None, None =>
      copy_quadratic m l' (if snd va && snd vb then value + q_factor q else value)
    | None, Some j =>
      do r <- copy_quadratic m l' value; let '(le, qe, v) := r in
      Some (mk_oelem (q_factor q) j :: le, qe, v)
    | Some i, None =>
      do r <- copy_quadratic m l' value; let '(le, qe, v) := r in
      Some (mk_oelem (q_factor q) i :: le, qe, v)
    | Some i, Some j =>
      do r <- copy_quadratic m l' value; let '(le, qe, v) := r in
      Some (le, mk_qelem (q_factor q) i j :: qe, v)
    end
  end.
(** lines 760-770: the search compares the loop index [i] with the variable indices; when
    nothing is found the end iterator is dereferenced ([None]). *)
Fixpoint add_to_index (i : nat) (f : Z) (l : list oelem) : option (list oelem) :=
  match l with
  | [] => None
  | e :: l' => if Nat.eqb i (o_var e) then Some (mk_oelem (o_factor e + f) (o_var e) :: l')
               else do r <- add_to_index i f l'; Some (e :: r)
  end.
(** preprocessor.cpp:760-770, the loop *)
Fixpoint merge_elements (i : nat) (mo : list oelem) (l : list oelem) : option (list oelem) :=
  match mo with
  | [] => Some l
  | e :: mo' => do l' <- add_to_index i (o_factor e) l; merge_elements (S i) mo' l'
  end.
(** lines 718-773 *)
Definition objective_function_exclude_copy (m : mapping) (o : objective) (mo : merge_obj) : option objective :=
  do r <- copy_linear m (o_elements o) (o_value o + mo_value mo);
  do q <- copy_quadratic m (o_qelements o) (snd r);
  let '(le, qe, v) := q in
  do els <- merge_elements 0 (mo_elements mo) (fst r ++ le);
  Some (mk_objective els qe v).

(** lines 803-826 *)
Fixpoint variables_exclude_copy (vars : vmap) (vs : variables) (is : list nat)
  (rv : variables) (ra : affected_variables) : option (variables * affected_variables) :=
  match is with
  | [] => Some (rv, ra)
  | i :: is' =>
    do nm <- nth_error (v_names vs) i;
    match vfind vars i with
    | None => do v <- nth_error (v_values vs) i;
              variables_exclude_copy vars vs is'
                (mk_variables (v_names rv ++ [nm]) (v_values rv ++ [v])) ra
    | Some b => variables_exclude_copy vars vs is' rv
                  (mk_affected (a_names ra ++ [nm]) (a_values ra ++ [b]))
    end
  end.

(** lines 848-857 *)
Fixpoint copy_elements (m : mapping) (l : list felem) (value : Z) : option (list felem * Z) :=
  match l with
  | [] => Some ([], value)
  | e :: l' =>
    do mi <- nth_error m (f_var e);
    match fst mi with
    | Some j => do r <- copy_elements m l' value; Some (mk_felem (f_factor e) j :: fst r, snd r)
    | None => copy_elements m l' (if snd mi then value - f_factor e else value)
    end
  end.
(** lines 828-859 *)
Fixpoint constraints_exclude_copy (m : mapping) (cnt : list nat) (l : list constraint) {struct l} : option (list constraint) :=
  match l, cnt with
  | [], _ => Some []
  | c :: l', k :: cnt' =>
    if Nat.leb k 1 then constraints_exclude_copy m cnt' l'
    else
      do r <- copy_elements m (c_elements c) (c_value c);
      do l'' <- constraints_exclude_copy m cnt' l';
      Some (mk_constraint (c_label c) (fst r) (snd r) (c_id c) :: l'')
  | _ :: _, [] => None
  end.

(** lines 677-682: a kept variable must have kept its name. *)
Fixpoint names_kept (m : mapping) (names : list text) (copy : list text) : bool :=
  match m, names with
  | (Some j, _) :: m', nm :: names' =>
    match nth_error copy j with
    | Some nm' => (if list_eq_dec Ascii.ascii_dec nm nm' then true else false) && names_kept m' names' copy
    | None => false
    end
  | (None, _) :: m', _ :: names' => names_kept m' names' copy
  | [], _ => true
  | _, [] => false
  end.
(** lines 52-62 *)
Definition is_valid_variable_index (l : list constraint) (size : nat) : bool :=
  forallb (fun c => forallb (fun e => Nat.ltb (f_var e) size) (c_elements c)) l.

(** lines 651-716; [aff] are the affected variables copied first (775-801): those of
    [pb] for a problem, none for a raw_problem. *)
Definition make_problem (pb : problem) (aff : affected_variables) (mo : merge_obj) (s : pstate)
  : outcome problem :=
  let n := length (v_values (p_vars pb)) in
  let m := make_mapping (s_vars s) (seq 0 n) 0 in
  let c := length (filter (fun mi => match fst mi with Some _ => true | None => false end) m) in
  ensures (Nat.eqb c (n - length (s_vars s)))
 (let! obj := of_opt (objective_function_exclude_copy m (p_objective pb) mo) in
  let! (vs, af) := of_opt (variables_exclude_copy (s_vars s) (p_vars pb) (seq 0 n) (mk_variables [] []) aff) in
  ensures (names_kept m (v_names (p_vars pb)) (v_names vs))
 (let! eq := of_opt (constraints_exclude_copy m (s_equal s) (p_equal pb)) in
  let! gr := of_opt (constraints_exclude_copy m (s_greater s) (p_greater pb)) in
  let! le := of_opt (constraints_exclude_copy m (s_less s) (p_less pb)) in
  let size := length (v_values vs) in
  ensures (is_valid_variable_index eq size && is_valid_variable_index gr size && is_valid_variable_index le size)
 (let q := mk_problem obj eq gr le vs af (p_type pb) (p_problem_type pb) in
  Ok (mk_problem obj eq gr le vs af (p_type pb) (which_problem_type q))))).

(** lines 616-625 and 638-647: common end of the two operator(). *)
Definition finish (fuel : nat) (pb : problem) (aff : affected_variables) (ch : caches) (s : pstate)
  : outcome (option problem) :=
  let! r1 := affects fuel pb ch s in
  match r1 with
  | None => Ok None
  | Some s1 =>
    let! mo := of_opt (make_lp_from_bqp_objective pb ch s1) in
    let! s2 := of_opt (try_remove_unused_variable pb ch s1) in
    let! r2 := affects fuel pb ch s2 in
    match r2 with
    | None => Ok None
    | Some s3 => let! q := make_problem pb aff mo s3 in Ok (Some q)
    end
  end.

(** operator()(), lines 628-648, and preprocess, lines 903-913. [Ok None]: out of fuel. *)
Definition preprocess (fuel : nat) (pb : problem) : outcome (option problem) :=
  let! ch := of_opt (make_caches pb) in
  let s0 := init_state pb in
  let s1 := mk_pstate (s_vars s0) (try_affect_bounded_variable pb (s_lifo s0))
              (s_equal s0) (s_greater s0) (s_less s0) in
  let! s2 := try_affect_variable pb s1 in
  finish fuel pb (mk_affected [] []) ch s2.

(** operator()(int, bool), lines 607-626, and affect, lines 883-901. *)
Definition affect (fuel : nat) (pb : problem) (v : nat) (b : bool) : outcome (option problem) :=
  ensures (Nat.ltb v (length (v_values (p_vars pb))))
 (let! ch := of_opt (make_caches pb) in
  let s0 := init_state pb in
  finish fuel pb (p_affected pb) ch
    (mk_pstate (s_vars s0) (lifo_emplace (s_lifo s0) v b) (s_equal s0) (s_greater s0) (s_less s0))).

(** split, lines 866-881 *)
Definition split (fuel : nat) (pb : problem) (v : nat) : outcome (option problem * option problem) :=
  ensures (Nat.ltb v (length (v_values (p_vars pb))))
 (let! a := affect fuel pb v true in
  let! b := affect fuel pb v false in
  Ok (a, b)).

(** unpreprocess, lines 915-923 and problem.hpp:57-69: same contents, class computed. *)
Definition unpreprocess (pb : problem) : problem :=
  mk_problem (p_objective pb) (p_equal pb) (p_greater pb) (p_less pb) (p_vars pb)
    (mk_affected [] []) (p_type pb) (which_problem_type pb).
