(** Where the program stops, or reads for ever, when it is given an LP file without square brackets; in the words of Accept_spec.v and Refused_spec.v. *)
From Coq Require Import Ascii String.
From Verif Require Import Base Problem_model ResultIO_model Chars_spec Lexer_model Parser_model Parser_spec Accept_spec Refused_spec.
Open Scope string_scope.
Open Scope list_scope.
Open Scope nat_scope.

Section Stops.
Context {D : Type} (dn : dops D).
(** Neither a sign nor a number. *)
Definition no_value (w : text) : Prop := number dn w = None /\ w <> str "+" /\ w <> str "-".
(** Not the first word of an element of a sum; it may be a keyword, or the end of the file. *)
Definition no_element (w : text) : Prop := no_value w /\ (keyword w = true \/ name_like w = false).

(** In the objective, after some elements, a word that is neither the first word of an element nor a keyword; or the end of the file. *)
Definition objective_stop (toks : list text) : Prop :=
  exists l rest, toks = flat_map item_tokens l ++ rest /\ items_ok dn l rest /\ no_element (word rest) /\ keyword (word rest) = false.
(** No longer operator starts at the same place. *)
Definition whole_operator (op : operator_type) (sp : spelling) (more : list text) : Prop :=
  forall op' sp', length (op_tokens op sp) < length (op_tokens op' sp') -> op_tokens op' sp' <> firstn 2 (op_tokens op sp ++ more).
(** In a constraint, after the label and some elements whose numbers are ints: a word that is not the first word of an element, and not an operator after at least one element;
    an element whose number is not an int; after the operator, no value, or a value that is not an int. *)
Definition row_stop (toks : list text) : Prop :=
  toks <> [] /\
  exists lb is rest, opt (fun l => name_like l = true /\ keyword l = false) lb /\ (lb = None -> name_like (word toks) = true -> nth 1 toks [] <> str ":") /\
    toks = label_tokens lb ++ flat_map item_tokens is ++ rest /\ items_ok dn is rest /\ Forall (fun i => int_ok dn (coefficient dn (item_term i))) is /\
    ((no_element (word rest) /\ (is <> [] -> rest <> [] /\ operator_like (word rest) = false)) \/
     (exists i more, rest = item_tokens i ++ more /\ item_ok dn i (word more) /\ ~ int_ok dn (coefficient dn (item_term i))) \/
     (exists op sp more, is <> [] /\ rest = op_tokens op sp ++ more /\ whole_operator op sp more /\
        (no_value (word more) \/
         exists s m after, more = sign_tokens s ++ num_tokens m ++ after /\ (s <> None \/ m <> None) /\ opt (is_num dn) m /\ (m = None -> number dn (word after) = None) /\
           ~ int_ok dn (with_sign dn s (number_of dn m))))).
(** The words of the line are the next words of the file; there is no character after the last word. *)
Definition line_at (l : bound_line) (rest : list text) : Prop := forall i, i < length (line_tokens l) -> nth i (line_tokens l) [] = nth i rest [].
(** A line of bounds of a variable of [N], whatever its limits. *)
Definition line_form (N : list text) (l : bound_line) : Prop :=
  In (line_name l) N /\ forallb char_name (line_name l) = true /\
  match l with
  | L_free nm => number_like nm = false
  | L_right nm _ _ v => number_like nm = false /\ is_num dn (s_num v)
  | L_left v _ _ _ skipped => signed_start v /\ is_num dn (s_num v) /\ operator_like skipped = false
  | L_both v1 _ _ _ _ _ v2 => signed_start v1 /\ is_num dn (s_num v1) /\ is_num dn (s_num v2) /\ d_gt dn (line_number dn v1) (line_number dn v2) = false
  end.
(** In the bounds: a limit of a variable that is neither infinite nor an int. *)
Definition bound_stop (N : list text) (toks : list text) : Prop :=
  exists ls rest l, toks = flat_map line_tokens ls ++ rest /\ Forall (line_ok dn N) ls /\ rest <> [] /\ keyword (word rest) = false /\ line_at l rest /\ line_form N l /\
    ((d_is_ninf dn (line_low dn l) = false /\ ~ int_ok dn (line_low dn l)) \/ (d_is_pinf dn (line_high dn l) = false /\ ~ int_ok dn (line_high dn l))).

Inductive program_stops : list text -> Prop :=
| Stop_objective w ty lb t1 : direction w = Some ty -> opt (fun l => keyword l = false) lb -> (lb = None -> nth 1 t1 [] <> str ":") -> objective_stop t1 ->
    program_stops (w :: label_tokens lb ++ t1)
| Stop_constraint toks l h ks part : to_constraints dn toks l (header_tokens h ++ flat_map row_tokens ks ++ part) -> subject_ok h -> rows_ok dn ks part ->
    (h_colon h = false -> word (flat_map row_tokens ks ++ part) <> str ":") -> keyword (word part) = false -> row_stop part -> program_stops toks
| Stop_bound toks N t3 more : to_bounds dn toks N t3 -> announced in_bounds t3 more -> bound_stop N more -> program_stops toks.

(** The file ends inside the names of the binary or the general variables, and a constraint has a constant: it counts for a variable without name, and
    the end of the file for its name. *)
Inductive reads_for_ever : list text -> Prop :=
| Runs_binary toks N t4 more : to_binary dn toks N t4 -> announced in_binary t4 more -> Forall (fun nm => In nm N /\ keyword nm = false) more -> In [] N -> reads_for_ever toks
| Runs_general toks N t5 more : to_general dn toks N t5 -> announced in_general t5 more -> Forall (fun nm => In nm N /\ keyword nm = false) more -> In [] N -> reads_for_ever toks.
End Stops.
