(** Vocabulary for the command line tool: what an LP document asks of a solution, and what a
    text file says, line by line. *)
From Coq Require Import Ascii String.
From Verif Require Import Base Problem_model Problem_spec ResultIO_spec Lexer_model Parser_model Parser_spec.
Open Scope Z_scope.
Open Scope list_scope.

(** A value for each name. *)
Definition valuation := text -> bool.

Section Document.
Context {D : Type} (dn : dops D).
(** The integer a coefficient or a right-hand side stands for. *)
Definition coefficient (t : term) : Z := int_of dn (term_value dn t).
Definition cst_sum (V : valuation) (k : cst) : Z :=
  fold_right Z.add 0 (map (fun t => coefficient t * bz (V (t_var t))) (cst_terms k)).
(** The constraint as it is written, with the values of [V]. *)
Definition cst_holds (V : valuation) (k : cst) : Prop :=
  match k_op k with
  | op_equal => cst_sum V k = int_of dn (signed_value dn (k_value k))
  | op_greater => cst_sum V k >= int_of dn (signed_value dn (k_value k))
  | op_less => cst_sum V k <= int_of dn (signed_value dn (k_value k))
  end.
Definition satisfies (V : valuation) (d : document) : Prop := Forall (cst_holds V) (dc_constraints d).
(** The bounds of each variable. *)
Definition within_bounds (V : valuation) (d : document) : Prop :=
  forall nm, In nm (document_names d) -> v_min (variable_of dn d nm) <= bz (V nm) <= v_max (variable_of dn d nm).
(** Every bound lets a variable be 0 or 1, or leaves it one of both values. *)
Definition zero_one_bounds (d : document) : Prop :=
  forall nm, In nm (document_names d) ->
    let v := variable_of dn d nm in (v_min v <= 0 /\ 1 <= v_max v) \/ (v_min v = v_max v /\ (v_max v = 0 \/ v_max v = 1)).
(** The absolute values of the coefficients of a constraint, added, fit an int. *)
Definition small_csts (d : document) : Prop :=
  Forall (fun k => fold_right Z.add 0 (map (fun t => Z.abs (coefficient t)) (cst_terms k)) <= int_max) (dc_constraints d).
End Document.

(** [l] is a line of the file [out]; each line ends with a newline. *)
Definition has_line (out l : text) : Prop :=
  ~ In newline l /\ exists before after, out = before ++ l ++ newline :: after /\ (before = [] \/ exists b, before = b ++ [newline]).
Definition value_is (nm : text) (b : bool) : text := nm ++ str "=" ++ (if b then str "1" else str "0").
(** What is printed for numbers, times and names of methods has no end of line. *)
Definition one_line {A} (f : A -> text) : Prop := forall a, ~ In newline (f a).

(** How many variables have a type. *)
Definition of_type (t : variable_type) (l : list variable_value) : Z :=
  Z.of_nat (List.length (filter (fun v => match v_type v, t with
                                          | vt_real, vt_real | vt_binary, vt_binary | vt_general, vt_general => true
                                          | _, _ => false end) l)).

(** The value of the objective of a document. [cost] gives the integer that stands for a double;
    the coefficients of a variable that is written several times are first added as doubles. *)
Section Objective.
Context {D : Type} (dn : dops D) (cost : D -> Z).
Definition objective_at (V : valuation) (d : document) : Z :=
  cost (fold_left (d_add dn) (map (signed_value dn) (constants (dc_objective d))) (d_zero dn)) +
  fold_right Z.add 0 (map (fun nm => cost (sum_values dn (map (term_value dn) (terms_of nm (var_terms (dc_objective d))))) * bz (V nm))
                          (firsts (map t_var (var_terms (dc_objective d))))).
End Objective.

(** What a file is for make_problem: no file, an error in it, or a problem. *)
Section Files.
Context {D : Type} (dn : dops D) (fs : text -> option text).
Definition unreadable (fuel : nat) (f : text) : Prop :=
  fs f = None \/ exists t e, fs f = Some t /\ make_problem dn fuel t = P_error e.
Definition reads_as (fuel : nat) (f : text) (p : raw_problem) : Prop :=
  exists t, fs f = Some t /\ make_problem dn fuel t = P_ok p.
End Files.
