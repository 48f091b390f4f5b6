(** LP documents (linear objective), the tokens they are written with and the problem they
    describe. *)
From Coq Require Import Ascii String Permutation.
From Verif Require Import Base Problem_model ResultIO_model Chars_spec Lexer_model Parser_model.
Open Scope string_scope.
Open Scope list_scope.
Open Scope nat_scope.

Inductive sign := Plus | Minus.
(** A number with an optional sign; a term: an optional sign, an optional number, a variable. *)
Record signed := mk_signed { s_sign : option sign; s_num : text }.
Record term := mk_term { t_sign : option sign; t_num : option text; t_var : text }.
Inductive oterm := O_var (t : term) | O_const (s : signed).
(** < or <= or =<; > or >= or =>; = or == *)
Inductive spelling := Sp1 | Sp2 | Sp3.
Record cst := mk_cst { k_label : option text; k_first : term; k_terms : list term; k_op : operator_type; k_spell : spelling; k_value : signed }.
Inductive bline :=
| B_upper (nm : text) (sp : spelling) (v : signed)
| B_range (lo : signed) (sp1 : spelling) (nm : text) (sp2 : spelling) (hi : signed).
(** A keyword, as written, and whether a colon follows it *)
Record header := mk_header { h_words : list text; h_colon : bool }.
Record document := mk_document {
  dc_type : text;                  (* maximize, min, ... *)
  dc_label : option text;          (* label of the objective *)
  dc_objective : list oterm;
  dc_subject : header;             (* subject to, st, ... *)
  dc_constraints : list cst;
  dc_bounds : option (header * list bline);
  dc_binary : option (header * list text);
  dc_general : option (header * list text);
  dc_end : header }.

(** ** Tokens *)
Definition sign_tokens (s : option sign) : list text := match s with None => [] | Some Plus => [str "+"] | Some Minus => [str "-"] end.
Definition signed_tokens (s : signed) : list text := sign_tokens (s_sign s) ++ [s_num s].
Definition num_tokens (n : option text) : list text := match n with None => [] | Some t => [t] end.
Definition term_tokens (t : term) : list text := sign_tokens (t_sign t) ++ num_tokens (t_num t) ++ [t_var t].
Definition oterm_tokens (t : oterm) : list text := match t with O_var t => term_tokens t | O_const s => signed_tokens s end.
Definition op_tokens (op : operator_type) (sp : spelling) : list text :=
  match op, sp with
  | op_less, Sp1 => [str "<"] | op_less, Sp2 => [str "<"; str "="] | op_less, Sp3 => [str "="; str "<"]
  | op_greater, Sp1 => [str ">"] | op_greater, Sp2 => [str ">"; str "="] | op_greater, Sp3 => [str "="; str ">"]
  | op_equal, Sp1 => [str "="] | op_equal, _ => [str "="; str "="]
  end.
Definition label_tokens (l : option text) : list text := match l with None => [] | Some t => [t; str ":"] end.
Definition cst_tokens (k : cst) : list text :=
  label_tokens (k_label k) ++ term_tokens (k_first k) ++ flat_map term_tokens (k_terms k) ++
  op_tokens (k_op k) (k_spell k) ++ signed_tokens (k_value k).
Definition bline_tokens (b : bline) : list text :=
  match b with
  | B_upper nm sp v => nm :: op_tokens op_less sp ++ signed_tokens v
  | B_range lo sp1 nm sp2 hi => signed_tokens lo ++ op_tokens op_less sp1 ++ nm :: op_tokens op_less sp2 ++ signed_tokens hi
  end.
Definition header_tokens (h : header) : list text := h_words h ++ if h_colon h then [str ":"] else [].
Definition section_tokens {A} (f : A -> list text) (s : option (header * list A)) : list text :=
  match s with None => [] | Some (h, l) => header_tokens h ++ flat_map f l end.
Definition document_tokens (d : document) : list text :=
  dc_type d :: label_tokens (dc_label d) ++ flat_map oterm_tokens (dc_objective d) ++
  header_tokens (dc_subject d) ++ flat_map cst_tokens (dc_constraints d) ++
  section_tokens bline_tokens (dc_bounds d) ++ section_tokens (fun nm => [nm]) (dc_binary d) ++
  section_tokens (fun nm => [nm]) (dc_general d) ++ header_tokens (dc_end d).

(** ** The problem of a document *)
(** The distinct elements of a list, in the order of their first occurrences, and the
    position of an element. *)
Fixpoint firsts (l : list text) : list text :=
  match l with [] => [] | x :: r => x :: filter (fun y => negb (text_eqb x y)) (firsts r) end.
Fixpoint position (x : text) (l : list text) : nat :=
  match l with [] => 0 | y :: r => if text_eqb x y then 0 else S (position x r) end.

Definition oterm_names (t : oterm) : list text := match t with O_var t => [t_var t] | O_const _ => [] end.
Definition cst_terms (k : cst) : list term := k_first k :: k_terms k.
Definition document_names (d : document) : list text :=
  firsts (flat_map oterm_names (dc_objective d) ++ flat_map (fun k => map t_var (cst_terms k)) (dc_constraints d)).

Section Meaning.
Context {D : Type} (dn : dops D).

Definition value_of (n : text) : D := match d_scan dn n with Some d => d | None => d_one dn end.
Definition with_sign (s : option sign) (d : D) : D := match s with Some Minus => d_neg dn d | _ => d end.
Definition signed_value (s : signed) : D := with_sign (s_sign s) (value_of (s_num s)).
Definition term_value (t : term) : D := with_sign (t_sign t) (match t_num t with Some n => value_of n | None => d_one dn end).
Definition int_of (d : D) : Z := match d_int dn d with Some z => z | None => 0%Z end.
(** Sum from the left. *)
Definition sum_values (l : list D) : D := match l with [] => d_zero dn | a :: r => fold_left (d_add dn) r a end.

(** The terms of the variable [nm]. *)
Definition terms_of (nm : text) (l : list term) : list term := filter (fun t => text_eqb (t_var t) nm) l.
Definition var_terms (l : list oterm) : list term := flat_map (fun t => match t with O_var t => [t] | _ => [] end) l.
Definition constants (l : list oterm) : list signed := flat_map (fun t => match t with O_const s => [s] | _ => [] end) l.

Definition objective_of (names : list text) (l : list oterm) : list (D * nat) :=
  map (fun nm => (sum_values (map term_value (terms_of nm (var_terms l))), position nm names)) (firsts (map t_var (var_terms l))).
Definition elements_of (names : list text) (l : list term) : list felem :=
  map (fun nm => mk_felem (fold_left Z.add (map (fun t => int_of (term_value t)) (terms_of nm l)) 0%Z) (position nm names))
      (firsts (map t_var l)).
Definition constraint_of (names : list text) (id : nat) (k : cst) : constraint :=
  mk_constraint (match k_label k with Some l => l | None => [] end) (elements_of names (cst_terms k))
    (int_of (signed_value (k_value k))) (Z.of_nat id).
Definition operator_eqb (a b : operator_type) : bool :=
  match a, b with op_equal, op_equal | op_greater, op_greater | op_less, op_less => true | _, _ => false end.
Definition constraints_of (op : operator_type) (names : list text) (l : list cst) : list constraint :=
  map (fun x => constraint_of names (fst x) (snd x))
      (filter (fun x => operator_eqb (k_op (snd x)) op) (combine (seq 0 (length l)) l)).

(** Bounds: 0 and INT_MAX unless the variable has a line. *)
Definition bline_name (b : bline) : text := match b with B_upper nm _ _ => nm | B_range _ _ nm _ _ => nm end.
Definition bline_min (b : bline) : Z := match b with B_upper _ _ _ => 0%Z | B_range lo _ _ _ _ => int_of (signed_value lo) end.
Definition bline_max (b : bline) : Z := match b with B_upper _ _ v => int_of (signed_value v) | B_range _ _ _ _ hi => int_of (signed_value hi) end.
Definition section_list {A} (s : option (header * list A)) : list A := match s with None => [] | Some (_, l) => l end.
Definition mem (nm : text) (l : list text) : bool := existsb (text_eqb nm) l.
Definition variable_of (d : document) (nm : text) : variable_value :=
  let '(mn, mx) :=
    match find (fun b => text_eqb (bline_name b) nm) (section_list (dc_bounds d)) with
    | Some b => (bline_min b, bline_max b)
    | None => (0%Z, int_max)
    end in
  let '(mn, mx, ty) := if mem nm (section_list (dc_binary d)) then (0%Z, 1%Z, vt_binary) else (mn, mx, vt_real) in
  mk_variable_value mn mx (if mem nm (section_list (dc_general d)) then vt_general else ty).

Definition meaning (ty : objective_type) (d : document) : raw_problem :=
  let names := document_names d in
  mk_raw ty (objective_of names (dc_objective d)) []
    (fold_left (d_add dn) (map signed_value (constants (dc_objective d))) (d_zero dn))
    (constraints_of op_equal names (dc_constraints d))
    (constraints_of op_greater names (dc_constraints d))
    (constraints_of op_less names (dc_constraints d))
    (mk_variables names (map (variable_of d) names)).

(** ** Well-formed documents *)
(** A name: a token of name characters that is not a keyword and that sscanf does not read as a
    number. *)
Definition name_ok (nm : text) : Prop :=
  nm <> [] /\ forallb char_name nm = true /\ keyword nm = false /\ length nm < 320 /\
  same_word nm (str "inf") = false /\ d_scan dn nm = None.
(** A number: starts with a digit or a point. *)
Definition num_ok (n : text) : Prop :=
  (exists c r, n = c :: r /\ (char_digit c || Ascii.eqb c "."%char) = true) /\ length n < 320 /\ d_scan dn n <> None.
Definition int_ok (d : D) : Prop := d_int dn d <> None.
Definition signed_ok (s : signed) : Prop := num_ok (s_num s).
Definition term_ok (t : term) : Prop := name_ok (t_var t) /\ match t_num t with Some n => num_ok n | None => True end.
(** In the objective, a constant comes last or before a sign. *)
Definition signed_oterm (t : oterm) : bool :=
  match t with O_var t => match t_sign t with Some _ => true | None => false end
             | O_const s => match s_sign s with Some _ => true | None => false end end.
Fixpoint objective_ok (l : list oterm) : Prop :=
  match l with
  | [] => True
  | O_var t :: r => term_ok t /\ objective_ok r
  | O_const s :: r => signed_ok s /\ match r with [] => True | t :: _ => signed_oterm t = true end /\ objective_ok r
  end.
Definition cst_ok (k : cst) : Prop :=
  match k_label k with Some l => name_like l = true /\ keyword l = false | None => True end /\
  Forall (fun t => term_ok t /\ int_ok (term_value t)) (cst_terms k) /\
  signed_ok (k_value k) /\ int_ok (signed_value (k_value k)).
(** A bound is finite and fits an int; the name of a variable that has a bound does not start
    like a number (a digit, a point, e, E or inf). *)
Definition finite (d : D) : Prop := int_ok d /\ d_is_pinf dn d = false /\ d_is_ninf dn d = false.
Definition bline_ok (names : list text) (b : bline) : Prop :=
  In (bline_name b) names /\
  match b with
  | B_upper nm _ v => number_like nm = false /\ signed_ok v /\ finite (signed_value v)
  | B_range lo _ _ _ hi => signed_ok lo /\ signed_ok hi /\ finite (signed_value lo) /\ finite (signed_value hi) /\
                           d_gt dn (signed_value lo) (signed_value hi) = false
  end.
Definition section_ok {A} (kw : list text) (P : A -> Prop) (s : option (header * list A)) : Prop :=
  match s with
  | None => True
  | Some (h, l) => (exists w, h_words h = [w] /\ is_one_of w kw = true) /\ Forall P l
  end.
(** st, subject to, ... *)
Definition subject_ok (h : header) : Prop :=
  (exists w, h_words h = [w] /\ is_one_of w [str "st"; str "st."; str "s.t."] = true) \/
  (exists w1 w2, h_words h = [w1; w2] /\
     ((same_word w1 (str "subject") = true /\ same_word w2 (str "to") = true) \/
      (same_word w1 (str "sush") = true /\ same_word w2 (str "that") = true))).
Record document_ok (ty : objective_type) (d : document) : Prop := {
  ok_type : direction (dc_type d) = Some ty;
  ok_label : match dc_label d with Some l => keyword l = false /\ l <> [] | None => True end;
  ok_objective : objective_ok (dc_objective d);
  ok_subject : subject_ok (dc_subject d);
  ok_constraints : Forall cst_ok (dc_constraints d);
  ok_bounds : section_ok [str "bounds"; str "bound"] (bline_ok (document_names d)) (dc_bounds d);
  ok_one_bound : NoDup (map bline_name (section_list (dc_bounds d)));
  ok_binary : section_ok [str "binary"; str "binaries"; str "bin"] (fun nm => In nm (document_names d)) (dc_binary d);
  ok_general : section_ok [str "general"; str "generals"; str "gen"] (fun nm => In nm (document_names d)) (dc_general d);
  ok_end : exists w, h_words (dc_end d) = [w] /\ same_word w (str "end") = true
}.
(** What is assumed of double: 0.0 is a finite integer. sscanf finds no number in an empty
    token. *)
Definition dops_ok : Prop :=
  d_int dn (d_zero dn) = Some 0%Z /\ d_is_ninf dn (d_zero dn) = false /\ d_scan dn [] = None.
End Meaning.

(** ** Well-formed problems *)
(** Distinct names, one value for each; every index names a variable; a variable occurs at most
    once in the objective and in each constraint, a pair of variables at most once in the
    quadratic part; a constraint is not empty; the constraints are numbered 0, 1, 2, ... *)
Section Well_formed.
Context {D : Type}.
Definition ids_ok (n : nat) (l : list nat) : Prop := NoDup l /\ Forall (fun i => i < n) l.
Definition pair_of (e : D * nat * nat) : nat * nat := let '(_, a, b) := e in (a, b).
Definition same_unordered (x y : nat * nat) : Prop := x = y \/ x = (snd y, fst y).
Record well_formed (p : raw_problem (D := D)) : Prop := {
  wf_names : NoDup (v_names (rw_vars p));
  wf_values : length (v_values (rw_vars p)) = length (v_names (rw_vars p));
  wf_objective : ids_ok (length (v_names (rw_vars p))) (map snd (rw_objective p));
  wf_quadratic : ForallOrdPairs (fun x y => ~ same_unordered x y) (map pair_of (rw_quadratic p)) /\
    Forall (fun x => fst x < length (v_names (rw_vars p)) /\ snd x < length (v_names (rw_vars p))) (map pair_of (rw_quadratic p));
  wf_constraints : forall c, In c (rw_equal p ++ rw_greater p ++ rw_less p) ->
    c_elements c <> [] /\ ids_ok (length (v_names (rw_vars p))) (map f_var (c_elements c));
  wf_ids : Permutation (map c_id (rw_equal p ++ rw_greater p ++ rw_less p))
             (map Z.of_nat (seq 0 (length (rw_equal p ++ rw_greater p ++ rw_less p))))
}.
End Well_formed.
