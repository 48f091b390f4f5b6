(** Problems that can be written and what reading them back has to give. *)
From Coq Require Import Ascii String.
From Verif Require Import Base Problem_model ResultIO_model Chars_spec Lexer_model Lexer_spec Parser_model Parser_spec Writer_model.
Open Scope string_scope.
Open Scope list_scope.
Open Scope nat_scope.

Section Spec.
Context {D : Type} (dn : dops D).
Local Notation raw_problem := (raw_problem (D := D)).

(** [p'] is [p] with the variable [i] renumbered [s i] (and the constraints numbered again). *)
Definition same_constraint (s : nat -> nat) (c c' : constraint) : Prop :=
  c_label c' = c_label c /\ c_value c' = c_value c /\
  c_elements c' = map (fun e => mk_felem (f_factor e) (s (f_var e))) (c_elements c).
Record renumbered (s : nat -> nat) (p p' : raw_problem) : Prop := {
  rn_type : rw_type p' = rw_type p;
  rn_count : length (v_names (rw_vars p')) = length (v_names (rw_vars p));
  rn_vars : forall i, i < length (v_names (rw_vars p)) ->
    nth_error (v_names (rw_vars p')) (s i) = nth_error (v_names (rw_vars p)) i /\
    nth_error (v_values (rw_vars p')) (s i) = nth_error (v_values (rw_vars p)) i;
  rn_objective : rw_objective p' = map (fun e => (fst e, s (snd e))) (rw_objective p);
  rn_quadratic : rw_quadratic p' = map (fun e => let '(f, a, b) := e in (f, s a, s b)) (rw_quadratic p);
  rn_value : rw_value p' = rw_value p;
  rn_equal : Forall2 (same_constraint s) (rw_equal p) (rw_equal p');
  rn_greater : Forall2 (same_constraint s) (rw_greater p) (rw_greater p');
  rn_less : Forall2 (same_constraint s) (rw_less p) (rw_less p')
}.

(** A word the lexer does not cut: name characters, the first not a digit or a point. *)
Definition uncut (w : text) : Prop :=
  forallb char_name w = true /\ length w < 320 /\
  match w with c :: _ => char_number_start c = false | [] => False end.
Definition lp_name (nm : text) : Prop := uncut nm /\ name_ok dn nm.
Definition lp_label (l : text) : Prop := l = [] \/ (uncut l /\ keyword l = false).
(** The text of a number: digits, points and letters e, starting with a digit or a point. *)
Definition number_text (s : text) : Prop :=
  num_ok dn s /\ forallb (fun c => char_digit c || one_of c ".eE") s = true.
(** A double is printed as an optional minus and a number that is read back as its absolute
    value (this fails for numbers printed with a signed exponent). *)
Definition printed (f : D) : Prop :=
  if d_gt dn (d_zero dn) f then exists s, d_show dn f = "-"%char :: s /\ number_text s /\ d_neg dn (value_of dn s) = f
  else d_gt dn f (d_zero dn) = true /\ number_text (d_show dn f) /\ value_of dn (d_show dn f) = f.
(** The digits of an int are read back as a double whose conversion to int is that int. *)
Definition signed_int (z : Z) : signed := mk_signed (if (z <? 0)%Z then Some Minus else None) (show_digits 20 (Z.abs z)).
Definition int_printed (z : Z) : Prop :=
  d_scan dn (show_digits 20 (Z.abs z)) <> None /\ d_int dn (signed_value dn (signed_int z)) = Some z.
Definition bound_printed (z : Z) : Prop := int_printed z /\ finite dn (signed_value dn (signed_int z)).

Record writable (p : raw_problem) : Prop := {
  wr_wf : well_formed p;
  wr_names : v_names (rw_vars p) <> [] /\ Forall lp_name (v_names (rw_vars p));
  wr_objective : Forall (fun e => printed (fst e)) (rw_objective p);
  wr_quadratic : rw_quadratic p = [];
  wr_value : (rw_value p = d_zero dn /\ d_gt dn (d_zero dn) (d_zero dn) = false) \/
             (printed (rw_value p) /\ d_add dn (d_zero dn) (rw_value p) = rw_value p);
  wr_constraints : forall c, In c (rw_equal p ++ rw_greater p ++ rw_less p) ->
    lp_label (c_label c) /\ int_printed (c_value c) /\
    Forall (fun e => f_factor e <> 0%Z /\ int_printed (f_factor e)) (c_elements c);
  (* lower bounds are 0; a variable that has an upper bound is not named like a number (e1) *)
  wr_bounds : forall i nm v, nth_error (v_names (rw_vars p)) i = Some nm -> nth_error (v_values (rw_vars p)) i = Some v ->
    v_min v = 0%Z /\ (v_max v = int_max \/ (number_like nm = false /\ bound_printed (v_max v))) /\
    (v_type v = vt_binary -> v_max v = 1%Z);
  (* every variable occurs *)
  wr_used : forall i, i < length (v_names (rw_vars p)) ->
    In i (map snd (rw_objective p)) \/
    exists c, In c (rw_equal p ++ rw_greater p ++ rw_less p) /\ In i (map f_var (c_elements c))
}.

(** The LP convention for a quadratic term of factor [f] on the variables [a] and [b]: a number
    whose half is [f], then the square of the variable or the product of the two. *)
Definition lp_term (names : list text) (e : D * nat * nat) (t : text) : Prop :=
  let '(f, a, b) := e in
  exists c na nb, d_half dn c = f /\ nth_error names a = Some na /\ nth_error names b = Some nb /\
    ((a = b /\ t = str " " ++ d_show dn c ++ str " " ++ na ++ str " ^2") \/
     (a <> b /\ t = str " " ++ d_show dn c ++ str " " ++ na ++ str " * " ++ nb)).
(** No name, no label and no printed number has a square bracket. *)
Definition bracket (c : ascii) : Prop := c = "["%char \/ c = "]"%char.
Definition no_bracket (t : text) : Prop := Forall (fun c => ~ bracket c) t.
Definition bracketless (p : raw_problem) : Prop :=
  (forall f, no_bracket (d_show dn f)) /\ Forall no_bracket (v_names (rw_vars p)) /\
  (forall c, In c (rw_equal p ++ rw_greater p ++ rw_less p) -> no_bracket (c_label c)).
End Spec.
