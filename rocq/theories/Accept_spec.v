(** What the words of an LP file without square brackets say, whatever the file: a reading gives a part to each word of the file.
    Looser than the documents of Parser_spec.v: all the files that are accepted have one. *)
From Coq Require Import Ascii String.
From Verif Require Import Base Problem_model ResultIO_model Chars_spec Lexer_model Parser_model Parser_spec.
Open Scope string_scope.
Open Scope list_scope.
Open Scope nat_scope.

(** An element of a sum: a sign, a number and a variable, none of them required; [I_const] has no variable. *)
Inductive item := I_var (t : term) | I_const (s : option sign) (n : option text).
Definition item_tokens (i : item) : list text := match i with I_var t => term_tokens t | I_const s n => sign_tokens s ++ num_tokens n end.
(** A constraint; the number on the right may be missing after a sign. *)
Record row := mk_row { w_label : option text; w_items : list item; w_op : operator_type; w_spell : spelling; w_sign : option sign; w_num : option text }.
Definition row_tokens (k : row) : list text :=
  label_tokens (w_label k) ++ flat_map item_tokens (w_items k) ++ op_tokens (w_op k) (w_spell k) ++ sign_tokens (w_sign k) ++ num_tokens (w_num k).
(** A line of bounds: x; x <= b; a <= x, with the word that comes next; a <= x <= b. The operators may be any. *)
Inductive bound_line :=
| L_free (nm : text)
| L_right (nm : text) (op : operator_type) (sp : spelling) (v : signed)
| L_left (v : signed) (op : operator_type) (sp : spelling) (nm : text) (skipped : text)
| L_both (v1 : signed) (op1 : operator_type) (sp1 : spelling) (nm : text) (op2 : operator_type) (sp2 : spelling) (v2 : signed).
Definition line_tokens (l : bound_line) : list text :=
  match l with
  | L_free nm => [nm]
  | L_right nm op sp v => nm :: op_tokens op sp ++ signed_tokens v
  | L_left v op sp nm skipped => signed_tokens v ++ op_tokens op sp ++ [nm; skipped]
  | L_both v1 op1 sp1 nm op2 sp2 v2 => signed_tokens v1 ++ op_tokens op1 sp1 ++ nm :: op_tokens op2 sp2 ++ signed_tokens v2
  end.
Definition line_name (l : bound_line) : text :=
  match l with L_free nm | L_right nm _ _ _ | L_left _ _ _ nm _ | L_both _ _ _ nm _ _ _ => nm end.

Record reading := mk_reading {
  rd_type : text;
  rd_label : option text;
  rd_objective : list item;
  rd_rows : option (header * list row);
  rd_bounds : option (header * list bound_line);
  rd_binary : option (header * list text);
  rd_general : option (header * list text);
  rd_end : header }.
Definition reading_tokens (r : reading) : list text :=
  rd_type r :: label_tokens (rd_label r) ++ flat_map item_tokens (rd_objective r) ++ section_tokens row_tokens (rd_rows r) ++
  section_tokens line_tokens (rd_bounds r) ++ section_tokens (fun nm => [nm]) (rd_binary r) ++
  section_tokens (fun nm => [nm]) (rd_general r) ++ header_tokens (rd_end r).

(** ** The problem of a reading *)
(** A constant is a term of the variable without name: only in a constraint. *)
Definition item_term (i : item) : term := match i with I_var t => t | I_const s n => mk_term s n [] end.
Definition item_vars (l : list item) : list term := flat_map (fun i => match i with I_var t => [t] | I_const _ _ => [] end) l.
Definition item_consts (l : list item) : list term := flat_map (fun i => match i with I_var _ => [] | I_const s n => [mk_term s n []] end) l.
Definition row_terms (k : row) : list term := map item_term (w_items k).
Definition reading_names (r : reading) : list text :=
  firsts (map t_var (item_vars (rd_objective r)) ++ flat_map (fun k => map t_var (row_terms k)) (section_list (rd_rows r))).

Section Meaning.
Context {D : Type} (dn : dops D).

(** inf, or what sscanf reads in a word of less than 320 characters *)
Definition number (t : text) : option D :=
  if same_word t (str "inf") then Some (d_inf dn) else if Nat.ltb (length t) 320 then d_scan dn t else None.
Definition is_num (t : text) : Prop := number t <> None.
(** A missing number is 1. *)
Definition number_of (n : option text) : D :=
  match n with Some t => match number t with Some d => d | None => d_one dn end | None => d_one dn end.
Definition coefficient (t : term) : D := with_sign dn (t_sign t) (number_of (t_num t)).
Definition line_number (s : signed) : D := with_sign dn (s_sign s) (number_of (Some (s_num s))).
Definition row_number (k : row) : D := with_sign dn (w_sign k) (number_of (w_num k)).

Definition the_objective (names : list text) (l : list item) : list (D * nat) :=
  map (fun nm => (sum_values dn (map coefficient (terms_of nm (item_vars l))), position nm names)) (firsts (map t_var (item_vars l))).
Definition the_elements (names : list text) (l : list term) : list felem :=
  map (fun nm => mk_felem (fold_left Z.add (map (fun t => int_of dn (coefficient t)) (terms_of nm l)) 0%Z) (position nm names)) (firsts (map t_var l)).
Definition the_constraint (names : list text) (id : nat) (k : row) : constraint :=
  mk_constraint (match w_label k with Some l => l | None => [] end) (the_elements names (row_terms k)) (int_of dn (row_number k)) (Z.of_nat id).
Definition the_constraints (op : operator_type) (names : list text) (l : list row) : list constraint :=
  map (fun x => the_constraint names (fst x) (snd x)) (filter (fun x => operator_eqb (w_op (snd x)) op) (combine (seq 0 (length l)) l)).

(** The bounds that a line gives, whatever its operators. *)
Definition line_low (l : bound_line) : D :=
  match l with L_free _ => d_neg dn (d_inf dn) | L_right _ _ _ _ => d_zero dn | L_left v _ _ _ _ => line_number v | L_both v _ _ _ _ _ _ => line_number v end.
Definition line_high (l : bound_line) : D :=
  match l with L_free _ => d_inf dn | L_right _ _ _ v => line_number v | L_left _ _ _ _ _ => d_inf dn | L_both _ _ _ _ _ _ v => line_number v end.
Definition low_of (d : D) : Z := if d_is_ninf dn d then int_min else int_of dn d.
Definition high_of (d : D) : Z := if d_is_pinf dn d then int_max else int_of dn d.
(** The last line of a variable counts. *)
Definition the_variable (r : reading) (nm : text) : variable_value :=
  let '(mn, mx) :=
    match find (fun l => text_eqb (line_name l) nm) (rev (section_list (rd_bounds r))) with
    | Some l => (low_of (line_low l), high_of (line_high l))
    | None => (0%Z, int_max)
    end in
  let '(mn, mx, ty) := if mem nm (section_list (rd_binary r)) then (0%Z, 1%Z, vt_binary) else (mn, mx, vt_real) in
  mk_variable_value mn mx (if mem nm (section_list (rd_general r)) then vt_general else ty).
Definition the_problem (ty : objective_type) (r : reading) : raw_problem :=
  let names := reading_names r in
  mk_raw ty (the_objective names (rd_objective r)) []
    (fold_left (d_add dn) (map coefficient (item_consts (rd_objective r))) (d_zero dn))
    (the_constraints op_equal names (section_list (rd_rows r)))
    (the_constraints op_greater names (section_list (rd_rows r)))
    (the_constraints op_less names (section_list (rd_rows r)))
    (mk_variables names (map (the_variable r) names)).

(** ** The parts are what they should be *)
Definition opt {A} (P : A -> Prop) (o : option A) : Prop := match o with Some a => P a | None => True end.
Definition is_name (t : text) : Prop := t <> [] /\ forallb char_name t = true.
(** [next] is the word that follows. A name that stands alone is not a number; a constant is not followed by a name, nor a lone sign by a number. *)
Definition item_ok (i : item) (next : text) : Prop :=
  match i with
  | I_var t => is_name (t_var t) /\ keyword (t_var t) = false /\ opt is_num (t_num t) /\ (t_num t = None -> number (t_var t) = None)
  | I_const s n => (s <> None \/ n <> None) /\ opt is_num n /\ (n = None -> number next = None) /\ (keyword next = true \/ name_like next = false)
  end.
(** The elements of a sum that [after] follows. *)
Fixpoint items_ok (l : list item) (after : list text) : Prop :=
  match l with [] => True | i :: l' => item_ok i (nth 0 (flat_map item_tokens l' ++ after) []) /\ items_ok l' after end.
Definition row_ok (k : row) (next : text) : Prop :=
  opt (fun l => name_like l = true /\ keyword l = false) (w_label k) /\
  w_items k <> [] /\ items_ok (w_items k) (op_tokens (w_op k) (w_spell k)) /\ Forall (fun t => int_ok dn (coefficient t)) (row_terms k) /\
  (w_sign k <> None \/ w_num k <> None) /\ opt is_num (w_num k) /\ (w_num k = None -> number next = None) /\ int_ok dn (row_number k).
Fixpoint rows_ok (l : list row) (after : list text) : Prop :=
  match l with [] => True | k :: l' => row_ok k (nth 0 (flat_map row_tokens l' ++ after) []) /\ rows_ok l' after end.
(** A line that starts with a number starts with a sign, a character of a number or inf; the word that is skipped is not an operator. *)
Definition signed_start (s : signed) : Prop := s_sign s = None -> number_like (s_num s) = true.
Definition operator_like (t : text) : bool := match t with c :: _ => one_of c "<>=" | [] => false end.
Definition line_ok (names : list text) (l : bound_line) : Prop :=
  In (line_name l) names /\ forallb char_name (line_name l) = true /\
  (d_is_ninf dn (line_low l) = true \/ int_ok dn (line_low l)) /\ (d_is_pinf dn (line_high l) = true \/ int_ok dn (line_high l)) /\
  match l with
  | L_free nm => number_like nm = false
  | L_right nm _ _ v => number_like nm = false /\ is_num (s_num v)
  | L_left v _ _ _ skipped => signed_start v /\ is_num (s_num v) /\ operator_like skipped = false
  | L_both v1 _ _ _ _ _ v2 => signed_start v1 /\ is_num (s_num v1) /\ is_num (s_num v2) /\ d_gt dn (line_number v1) (line_number v2) = false
  end.
(** A section: its keyword, the words that it announces. *)
Definition part_ok {A} (kw : list text) (P : A -> Prop) (s : option (header * list A)) : Prop :=
  opt (fun s => (exists w, h_words (fst s) = [w] /\ is_one_of w kw = true) /\ Forall P (snd s)) s.
Record reading_ok (ty : objective_type) (r : reading) : Prop := {
  rk_type : direction (rd_type r) = Some ty;
  rk_label : opt (fun l => keyword l = false) (rd_label r);
  rk_objective : exists next, keyword next = true /\ items_ok (rd_objective r) [next];
  rk_rows : opt (fun s => subject_ok (fst s) /\ exists next, keyword next = true /\ rows_ok (snd s) [next]) (rd_rows r);
  rk_bounds : part_ok [str "bounds"; str "bound"] (line_ok (reading_names r)) (rd_bounds r);
  rk_binary : part_ok [str "binary"; str "binaries"; str "bin"] (fun nm => In nm (reading_names r)) (rd_binary r);
  rk_general : part_ok [str "general"; str "generals"; str "gen"] (fun nm => In nm (reading_names r)) (rd_general r);
  rk_end : exists w, h_words (rd_end r) = [w] /\ same_word w (str "end") = true
}.
(** What is assumed of a word of the file: it has not exactly 320 characters, and sscanf finds a number in it only when it starts with a character of names and is not a keyword. *)
Definition usual_word (t : text) : Prop := length t <> 320 /\ (d_scan dn t <> None -> name_like t = true /\ keyword t = false).
End Meaning.
