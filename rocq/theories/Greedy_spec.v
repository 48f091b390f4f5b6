(** Vocabulary for the choice made by a row update: the reduced costs. *)
From Coq Require Import Sorting.
From Verif Require Import Base Problem_model Problem_spec Merged_model Classify_model Rows_model Rows_spec.
Open Scope Z_scope.

(** What the theorems need of floating point numbers: comparison is a strict weak order (no NaN),
    numbers that compare equal are not less than each other, 1 * q is q. *)
Record ordered_floats {F} (fo : fops F) : Prop := mk_ordered {
  of_irrefl : forall a, fl_lt fo a a = false;
  of_trans : forall a b c, fl_lt fo a b = true -> fl_lt fo b c = true -> fl_lt fo a c = true;
  of_negtrans : forall a b c, fl_lt fo a b = false -> fl_lt fo b c = false -> fl_lt fo a c = false;
  of_eqb : forall a b, fl_eqb fo a b = true -> fl_lt fo a b = false /\ fl_lt fo b a = false;
  of_mul_1 : forall q, fl_mul fo (fl_of_Z fo 1) q = q }.

(** The elements of the rows, in order: the number of the element (from [slot]), the number of its
    row (from [row]), the element. *)
Fixpoint row_places (row slot : nat) (l : list felem) : list (nat * nat * felem) :=
  match l with [] => [] | e :: l' => (slot, row, e) :: row_places row (S slot) l' end.
Fixpoint places (row slot : nat) (cs : list merged) : list (nat * nat * felem) :=
  match cs with
  | [] => []
  | c :: cs' => row_places row slot (m_elements c) ++ places (S row) (slot + length (m_elements c)) cs'
  end.
(** Where variable [v] occurs. *)
Definition occurrences (cs : list merged) (v : nat) : list (nat * nat * felem) :=
  filter (fun p => Nat.eqb (f_var (snd p)) v) (places 0 0 cs).

Section Reduced.
Context {F : Type} (fo : fops F).
Let zero := fl_of_Z fo 0.
Definition sum_over (value : nat * nat * felem -> F) (l : list (nat * nat * felem)) : F :=
  fold_left (fun s p => fl_add fo s (fl_mul fo (fl_of_Z fo (f_factor (snd p))) (value p))) l zero.
(** The multiplier of the row of an element, its preference; the preferences of row [k] fade by theta. *)
Definition multiplier (pi : list F) (p : nat * nat * felem) : F := let '(_, row, _) := p in nth row pi zero.
Definition preference (theta : F) (k : nat) (P : list F) (p : nat * nat * felem) : F :=
  let '(slot, row, _) := p in
  if Nat.eqb row k then fl_mul fo (nth slot P zero) theta else nth slot P zero.
(** cost - sum of coefficient * multiplier - sum of coefficient * preference *)
Definition reduced_cost (cs : list merged) (theta : F) (k : nat) (P pi : list F) (v : nat) (cost : F) : F :=
  fl_sub fo (fl_sub fo cost (sum_over (multiplier pi) (occurrences cs v)))
            (sum_over (preference theta k P) (occurrences cs v)).
(** What it costs to give a term of the row its largest value. *)
Definition term_cost (a : Z) (reduced : F) : F := if a <? 0 then fl_neg fo reduced else reduced.

(** Better, for the direction of the optimisation. *)
Definition better (mode : objective_type) (a b : F) : bool :=
  match mode with minimize => fl_lt fo a b | maximize => fl_lt fo b a end.
End Reduced.

(** A term is chosen when its variable gives it its largest value. *)
Definition chosen (x : list bool) (e : felem) : Prop := nth_error x (f_var e) = Some (0 <? f_factor e).

(** The choice is greedy for the values [val] of the terms (by position in the row): a chosen term is
    not worse than one that is not; a term that costs is chosen only if the lower bound asks for it;
    a term that pays is left out only if the upper bound forbids it. *)
Definition greedy {F} (fo : fops F) (mode : objective_type) (r : merged) (val : nat -> F) (x : list bool) : Prop :=
  let zero := fl_of_Z fo 0 in
  let value := lhs (as_assignment x) (m_elements r) in
  (forall i e i' e', nth_error (m_elements r) i = Some e -> nth_error (m_elements r) i' = Some e' ->
     chosen x e -> ~ chosen x e' -> better fo mode (val i') (val i) = false) /\
  (m_min r < value -> forall i e, nth_error (m_elements r) i = Some e -> chosen x e -> better fo mode zero (val i) = false) /\
  (value < m_max r -> forall i e, nth_error (m_elements r) i = Some e -> ~ chosen x e -> better fo mode (val i) zero = false).
