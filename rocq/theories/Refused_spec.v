(** Which section of a refused LP file is at fault, in the words of Accept_spec.v. *)
From Coq Require Import Ascii String.
From Verif Require Import Base Problem_model ResultIO_model Chars_spec Lexer_model Parser_model Parser_spec Accept_spec.
Open Scope string_scope.
Open Scope list_scope.
Open Scope nat_scope.

(** The next word, or no character at the end of the file. *)
Definition word (toks : list text) : text := nth 0 toks [].

Section Refused.
Context {D : Type} (dn : dops D).
(** Each relation: [toks] is a section that can be read, and [rest] follows, from its keyword on. A label or a colon that is there is part of the section, and a
    section is missing only if its keyword is not there. *)
Definition opening (toks rest : list text) : Prop :=
  exists w ty label, direction w = Some ty /\ opt (fun l => keyword l = false) label /\
    (label = None -> keyword (word rest) = true \/ nth 1 rest [] <> str ":") /\ toks = w :: label_tokens label ++ rest.
Definition objective_part (l : list item) (toks rest : list text) : Prop :=
  toks = flat_map item_tokens l ++ rest /\ items_ok dn l rest /\ keyword (word rest) = true.
Definition rows_part (l : list row) (toks rest : list text) : Prop :=
  toks = flat_map row_tokens l ++ rest /\ rows_ok dn l rest /\ keyword (word rest) = true.
Definition list_part {A} (f : A -> list text) (P : A -> Prop) (l : list A) (toks rest : list text) : Prop :=
  toks = flat_map f l ++ rest /\ Forall P l /\ keyword (word rest) = true.
(** With the keyword that announces it; a section may be missing. *)
Definition whole_header (h : header) (more : list text) : Prop := h_colon h = false -> word more <> str ":".
Definition constraints_section (s : option (header * list row)) (toks rest : list text) : Prop :=
  match s with
  | None => toks = rest /\ forall h more, subject_ok h -> toks <> header_tokens h ++ more
  | Some (h, l) => subject_ok h /\ exists more, toks = header_tokens h ++ more /\ whole_header h more /\ rows_part l more rest
  end.
Definition announced (kw : list text) (toks more : list text) : Prop :=
  exists h w, h_words h = [w] /\ is_one_of w kw = true /\ toks = header_tokens h ++ more /\ whole_header h more.
Definition list_section {A} (kw : list text) (f : A -> list text) (P : A -> Prop) (s : option (list A)) (toks rest : list text) : Prop :=
  match s with None => toks = rest /\ is_one_of (word toks) kw = false | Some l => exists more, announced kw toks more /\ list_part f P l more rest end.

Definition in_bounds := [str "bounds"; str "bound"].
Definition in_binary := [str "binary"; str "binaries"; str "bin"].
Definition in_general := [str "general"; str "generals"; str "gen"].
(** The names of the variables: the ones of the objective and of the constraints. *)
Definition names_in (l : list item) (s : option (header * list row)) : list text :=
  firsts (map t_var (item_vars l) ++ flat_map (fun k => map t_var (row_terms k)) (section_list s)).

(** What has been read before each section. *)
Definition to_constraints (toks : list text) (l : list item) (rest : list text) : Prop := exists t1, opening toks t1 /\ objective_part l t1 rest.
Definition to_bounds (toks : list text) (N : list text) (rest : list text) : Prop :=
  exists l s t2, to_constraints toks l t2 /\ constraints_section s t2 rest /\ N = names_in l s.
Definition to_binary (toks : list text) (N : list text) (rest : list text) : Prop :=
  exists s t3, to_bounds toks N t3 /\ list_section in_bounds line_tokens (line_ok dn N) s t3 rest.
Definition to_general (toks : list text) (N : list text) (rest : list text) : Prop :=
  exists s t4, to_binary toks N t4 /\ list_section in_binary (fun nm => [nm]) (fun nm => In nm N) s t4 rest.
Definition to_end (toks : list text) (N : list text) (rest : list text) : Prop :=
  exists s t5, to_general toks N t5 /\ list_section in_general (fun nm => [nm]) (fun nm => In nm N) s t5 rest.

(** [first_fault e toks]: [e] names the first section that cannot be read. A file that stops after its last constraint has no end. *)
Inductive first_fault : tag -> list text -> Prop :=
| Fault_type toks : direction (word toks) = None -> first_fault bad_objective_function_type toks
| Fault_objective toks t1 : opening toks t1 -> (forall l rest, ~ objective_part l t1 rest) -> first_fault bad_objective toks
| Fault_constraint toks l h more : to_constraints toks l (header_tokens h ++ more) -> subject_ok h -> whole_header h more -> (forall ks rest, ~ rows_part ks more rest) ->
    (forall ks, rows_ok dn ks [] -> more <> flat_map row_tokens ks) -> first_fault bad_constraint toks
| Fault_unended toks l h ks : to_constraints toks l (header_tokens h ++ flat_map row_tokens ks) -> subject_ok h -> whole_header h (flat_map row_tokens ks) -> rows_ok dn ks [] -> first_fault bad_end toks
| Fault_bound toks N t3 more : to_bounds toks N t3 -> announced in_bounds t3 more -> (forall ls rest, ~ list_part line_tokens (line_ok dn N) ls more rest) ->
    first_fault bad_bound toks
| Fault_binary toks N t4 more : to_binary toks N t4 -> announced in_binary t4 more ->
    (forall l rest, ~ list_part (fun nm => [nm]) (fun nm => In nm N) l more rest) -> first_fault bad_binary toks
| Fault_general toks N t5 more : to_general toks N t5 -> announced in_general t5 more ->
    (forall l rest, ~ list_part (fun nm => [nm]) (fun nm => In nm N) l more rest) -> first_fault bad_general toks
| Fault_end toks N t6 : to_end toks N t6 -> same_word (word t6) (str "end") = false -> first_fault bad_end toks
| Fault_after toks N t6 more : to_end toks N t6 -> announced [str "end"] t6 more -> more <> [] -> first_fault bad_end_of_file toks.
End Refused.
