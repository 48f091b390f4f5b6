(** Model of lib/src/merged-constraint.cpp. *)
From Verif Require Import Base Problem_model.
Open Scope Z_scope.

(** itm-common.hpp:55-71 *)
Record merged := mk_merged { m_elements : list felem; m_min : Z; m_max : Z; m_id : Z }.

(** core (solver_parameters::pre_constraint_order, line 296) *)
Inductive pre_order :=
| po_none | po_memory
| po_less_greater_equal | po_less_equal_greater
| po_greater_less_equal | po_greater_equal_less
| po_equal_less_greater | po_equal_greater_less
| po_p1 | po_p2 | po_p3 | po_p4.

(** std::unordered_map<vector<function_element>, size_t>: keys compared with operator==
    (core-compare:48-53); the hash (merged-constraint.cpp:37-50) is a function of the
    key, so find() returns the unique entry with an equal key. *)
Definition cache := list (list felem * nat).
(** std::unordered_map::find, merged-constraint.cpp:57-128 *)
Fixpoint cache_find (c : cache) (k : list felem) : option nat :=
  match c with
  | [] => None
  | (k', i) :: c' => if felems_eqb k k' then Some i else cache_find c' k
  end.
(** std::unordered_map::emplace, merged-constraint.cpp:57-128 *)
Definition cache_emplace (c : cache) (k : list felem) (i : nat) : cache := c ++ [(k, i)].

(** The cache and the result of merged-constraint.cpp:57-128. *)
Definition mstate := (cache * list merged)%type.

(** merged-constraint.cpp:67-91. numeric_cast<int> of an int is the identity. *)
Definition fill_equal (s : mstate) (e : constraint) : outcome mstate :=
  let '(c, ret) := s in
  match cache_find c (c_elements e) with
  | None => Ok (cache_emplace c (c_elements e) (length ret),
                ret ++ [mk_merged (c_elements e) (c_value e) (c_value e) (c_id e)])
  | Some i =>
    let! m := of_opt (nth_error ret i) in
    if (m_min m <=? c_value e) && (c_value e <=? m_max m)
    then let! ret' := of_opt (list_upd ret i (mk_merged (m_elements m) (c_value e) (c_value e) (m_id m))) in
         Ok (c, ret')
    else Throw
  end.

(** merged-constraint.cpp:94-107 *)
Definition fill_less (s : mstate) (e : constraint) : outcome mstate :=
  let '(c, ret) := s in
  match cache_find c (c_elements e) with
  | None => Ok (cache_emplace c (c_elements e) (length ret),
                ret ++ [mk_merged (c_elements e) int_min (c_value e) (c_id e)])
  | Some i =>
    let! m := of_opt (nth_error ret i) in
    let! ret' := of_opt (list_upd ret i
                   (mk_merged (m_elements m) (m_min m) (Z.min (m_max m) (c_value e)) (m_id m))) in
    Ok (c, ret')
  end.

(** merged-constraint.cpp:110-123 *)
Definition fill_greater (s : mstate) (e : constraint) : outcome mstate :=
  let '(c, ret) := s in
  match cache_find c (c_elements e) with
  | None => Ok (cache_emplace c (c_elements e) (length ret),
                ret ++ [mk_merged (c_elements e) (c_value e) int_max (c_id e)])
  | Some i =>
    let! m := of_opt (nth_error ret i) in
    let! ret' := of_opt (list_upd ret i
                   (mk_merged (m_elements m) (Z.max (m_min m) (c_value e)) (m_max m) (m_id m))) in
    Ok (c, ret')
  end.

(** The loops of merged-constraint.cpp:57-128 over the constraints of one operator. *)
Fixpoint fill_list (f : mstate -> constraint -> outcome mstate) (s : mstate)
  (l : list constraint) : outcome mstate :=
  match l with
  | [] => Ok s
  | e :: l' => let! s' := f s e in fill_list f s' l'
  end.

(** merged-constraint.cpp:57-128 *)
Definition fill_merged (op : operator_type) (pb : problem) (s : mstate) : outcome mstate :=
  match op with
  | op_equal => fill_list fill_equal s (p_equal pb)
  | op_less => fill_list fill_less s (p_less pb)
  | op_greater => fill_list fill_greater s (p_greater pb)
  end.

(** merged-constraint.cpp:142-152 and 179-211: the three loops, in some order. *)
Definition fill3 (o1 o2 o3 : operator_type) (pb : problem) : outcome (list merged) :=
  let! s1 := fill_merged o1 pb ([], []) in
  let! s2 := fill_merged o2 pb s1 in
  let! s3 := fill_merged o3 pb s2 in
  Ok (snd s3).

Section Sort.
(** std::sort: the order it leaves equivalent elements in is unspecified, so it is a
    parameter; the theorems assume only that it permutes (and, where the order matters, that the
    result is sorted). *)
Variable std_sort : forall A : Type, (A -> A -> bool) -> list A -> list A.
Arguments std_sort {A} _ _.

(** double division factor / degree (merged-constraint.cpp:237): not interpreted. *)
Variable ddiv : Z -> Z -> Z.

(** The order given to std::sort by merged-constraint.cpp:153-156 and 271-273. *)
Definition by_id (a b : merged) : bool := m_id a <? m_id b.
(** The order of the elements of a constraint by variable, merged-constraint.cpp:275-281. *)
Definition by_var (a b : felem) : bool := Nat.ltb (f_var a) (f_var b).

(** merged-constraint.cpp:133-158 *)
Definition make_unsorted (pb : problem) : outcome (list merged) :=
  let! ret := fill3 op_equal op_less op_greater pb in
  Ok (std_sort by_id ret).

(** merged-constraint.cpp:163-216; the default branch leaves the vector empty. *)
Definition make_ordered (po : pre_order) (pb : problem) : outcome (list merged) :=
  match po with
  | po_less_greater_equal => fill3 op_less op_greater op_equal pb
  | po_less_equal_greater => fill3 op_less op_equal op_greater pb
  | po_greater_less_equal => fill3 op_greater op_less op_equal pb
  | po_greater_equal_less => fill3 op_greater op_equal op_less pb
  | po_equal_less_greater => fill3 op_equal op_less op_greater pb
  | po_equal_greater_less => fill3 op_equal op_greater op_less pb
  | _ => Ok []
  end.

(** merged-constraint.cpp:229-232: ++degree[variable_index], out of bounds is undefined. *)
Fixpoint count_degree (l : list felem) (d : list Z) : option (list Z) :=
  match l with
  | [] => Some d
  | e :: l' => do d' <- list_modify d (f_var e) (fun z => z + 1); count_degree l' d'
  end.
(** merged-constraint.cpp:229-232, the loop over the constraints *)
Fixpoint count_degrees (l : list merged) (d : list Z) : option (list Z) :=
  match l with
  | [] => Some d
  | m :: l' => do d' <- count_degree (m_elements m) d; count_degrees l' d'
  end.

(** merged-constraint.cpp:234-238 *)
Fixpoint fill_costs (degree : list Z) (l : list oelem) (cost : list Z) : option (list Z) :=
  match l with
  | [] => Some cost
  | e :: l' => do d <- nth_error degree (o_var e);
               do cost' <- list_upd cost (o_var e) (ddiv (o_factor e) d);
               fill_costs degree l' cost'
  end.

(** merged-constraint.cpp:246-250 *)
Fixpoint min_ratio (cost : list Z) (l : list felem) (acc : Z) : option Z :=
  match l with
  | [] => Some acc
  | e :: l' => do c <- nth_error cost (f_var e); min_ratio cost l' (Z.min acc c)
  end.
(** merged-constraint.cpp:240-251: elements[0] is read first. *)
Fixpoint ratios (cost : list Z) (l : list merged) (i : Z) : option (list (Z * Z)) :=
  match l with
  | [] => Some []
  | m :: l' =>
    do e0 <- nth_error (m_elements m) 0;
    do c0 <- nth_error cost (f_var e0);
    do r <- min_ratio cost (tl (m_elements m)) c0;
    do rs <- ratios cost l' (i + 1);
    Some ((i, r) :: rs)
  end.

(** merged-constraint.cpp:268-269: csts[i].id = constraints_ratio_min[i].first *)
Fixpoint set_ids (l : list merged) (r : list (Z * Z)) : option (list merged) :=
  match l, r with
  | [], _ => Some []
  | m :: l', p :: r' =>
    do t <- set_ids l' r';
    Some (mk_merged (m_elements m) (m_min m) (m_max m) (fst p) :: t)
  | _ :: _, [] => None
  end.

(** The sort of the elements of one constraint, merged-constraint.cpp:275-281. *)
Definition sort_elements (lt : felem -> felem -> bool) (m : merged) : merged :=
  mk_merged (std_sort lt (m_elements m)) (m_min m) (m_max m) (m_id m).

(** merged-constraint.cpp:278-281; indices were checked while counting degrees. *)
Definition by_cost_desc (cost : list Z) (a b : felem) : bool :=
  match nth_error cost (f_var a), nth_error cost (f_var b) with
  | Some ca, Some cb => cb <? ca
  | _, _ => false
  end.

(** merged-constraint.cpp:223-284 *)
Definition make_special (po : pre_order) (pb : problem) : outcome (list merged) :=
  let! csts := make_unsorted pb in
  let n := length (v_values (p_vars pb)) in
  let! degree := of_opt (count_degrees csts (repeat 0 n)) in
  let! cost := of_opt (fill_costs degree (o_elements (p_objective pb)) (repeat 0 n)) in
  let! r := of_opt (ratios cost csts 0) in
  let r' := match po with
            | po_p1 => std_sort (fun a b : Z * Z => snd b <? snd a) r
            | _ => std_sort (fun a b : Z * Z => snd a <? snd b) r
            end in
  let! csts' := of_opt (set_ids csts r') in
  let sorted := std_sort by_id csts' in
  Ok (map (sort_elements (by_cost_desc cost)) sorted).

(** merged-constraint.cpp:286-295 *)
Definition improve_memory_usage (l : list merged) : list merged :=
  map (sort_elements by_var) l.

(** merged-constraint.cpp:297-343 (log messages not modelled) *)
Definition make_merged (po : pre_order) (pb : problem) : outcome (list merged) :=
  match po with
  | po_none => make_unsorted pb
  | po_memory => let! r := make_unsorted pb in Ok (improve_memory_usage r)
  | po_p1 | po_p2 | po_p3 | po_p4 => make_special po pb
  | _ => let! r := make_ordered po pb in Ok (improve_memory_usage r)
  end.
End Sort.
