(** Model of main() and of the reports it writes, app/src/main.cpp:1010-1368, for a command line
    without --bench. The texts that depend on the clock, on the process or on how numbers are
    printed are parameters. *)
From Coq Require Import Ascii String.
From Verif Require Import Base Problem_model Validate_model ResultIO_model Lexer_model Parser_model Writer_model Solver_model.
Open Scope string_scope.
Open Scope list_scope.

(** The numbers of real, general and binary variables, 1012-1026 and 1048-1062. *)
Fixpoint count_types (l : list variable_value) (real general binary : Z) : Z * Z * Z :=
  match l with
  | [] => (real, general, binary)
  | v :: l' =>
    match v_type v with
    | vt_real => count_types l' (real + 1)%Z general binary
    | vt_binary => count_types l' real general (binary + 1)%Z
    | vt_general => count_types l' real (general + 1)%Z binary
    end
  end.
(** The format "{}/{}/{}", main.cpp:1012-1026 and 1048-1062. *)
Definition slashes (a b c : Z) : text := show_int a ++ str "/" ++ show_int b ++ str "/" ++ show_int c.
(** std::vector::size as an int, main.cpp:1012-1062 *)
Definition size {A} (l : list A) : Z := Z.of_nat (List.length l).
(** resume(raw_problem, ostream), 1044-1083, without the ends of lines. The doubles of the objective
    are not printed. *)
Definition resume_problem (pb : problem) : list text :=
  let '(real, general, binary) := count_types (v_values (p_vars pb)) 0 0 0 in
  [ str "\ objective : " ++ match p_type pb with maximize => str "maximize" | minimize => str "minimize" end;
    str "\ mode: " ++ match o_qelements (p_objective pb) with [] => str "linear" | _ => str "quadratic" end;
    str "\ variables: " ++ slashes real general binary ++ str " (real/general/binary)";
    str "\ constraints: " ++ slashes (size (p_equal pb)) (size (p_greater pb)) (size (p_less pb)) ++ str " (equal/greater/less)" ].

(** The names and values of a result, 1129-1143: the first loop runs over the names, the second one
    over the values. *)
Fixpoint named_values (names : list text) (values : list bool) : option (list text) :=
  match values with
  | [] => Some []
  | b :: values' =>
    match names with
    | nm :: names' => do r <- named_values names' values'; Some ((nm ++ str "=" ++ [value_char b]) :: r)
    | [] => None
    end
  end.
(** main.cpp:1129-1135 *)
Fixpoint fixed_values (names : list text) (values : list bool) : option (list text) :=
  match names with
  | [] => Some []
  | nm :: names' =>
    match values with
    | b :: values' => do r <- fixed_values names' values'; Some ((nm ++ str "=" ++ [value_char b]) :: r)
    | [] => None
    end
  end.

(** A result is a [result] (Validate_model) when its values are not looked at. *)
Definition to_result (r : sresult) : result :=
  mk_result (sr_affected r) (sr_names r)
    (map (fun s => mk_solution (fst s) (match snd s with Some v => v | None => 0%Z end)) (sr_solutions r)) (sr_status r).
(** solutions.back(), main.cpp:1085-1145 *)
Definition last_solution (r : sresult) : option (list bool * option Z) := List.last (map Some (sr_solutions r)) None.

(** The problem handed to solve(): raw_problem with its costs ([cost]: double to the integers of
    Problem_model). *)
Definition to_problem {D} (cost : D -> Z) (p : raw_problem (D := D)) : problem :=
  mk_problem
    (mk_objective (map (fun e => mk_oelem (cost (fst e)) (snd e)) (rw_objective p))
                  (map (fun e => mk_qelem (cost (fst (fst e))) (snd (fst e)) (snd e)) (rw_quadratic p)) (cost (rw_value p)))
    (rw_equal p) (rw_greater p) (rw_less p) (rw_vars p) (mk_affected [] []) (rw_type p) equalities_01.

(** How main() ends. A message on the error stream: a file that cannot be read, or an exception. *)
Inductive message := No_file_name | Bad_command_line | Cannot_read (file : text) | Exception_ (file : text).
(** The result of main(), main.cpp:1171-1368, with the files written and the messages. *)
Record ending := mk_ending { en_code : Z; en_files : list (text * text); en_messages : list message }.

Section Main.
Context {D : Type} (dn : dops D) (cost : D -> Z).
(** solve_or_optimize, 1161-1168 *)
Variable run : problem -> run_result (outcome sresult).
(** The content of a file; [None]: it cannot be opened. *)
Variable fs : text -> option text.
Variables (pid end_time : text) (method duration loops : sresult -> text) (show_f show_value : option Z -> text).

(** resume(result, ostream) for a success, 1085-1145. 1118: result.solutions.empty(). *)
Definition resume_result (r : sresult) : outcome (list text) :=
  let head := [ str "\ solver................: " ++ method r;
                str "\ constraints...........: " ++ show_int (Z.of_nat (sr_constraints r));
                str "\ variables.............: " ++ show_int (Z.of_nat (sr_variables r));
                str "\ duration..............: " ++ duration r;
                str "\ loop..................: " ++ loops r;
                str "\ status................: solution found" ] in
  match last_solution r with
  | None => Ok head
  | Some (x, v) =>
    let! fixed := of_opt (fixed_values (a_names (sr_affected r)) (a_values (sr_affected r))) in
    let! named := of_opt (named_values (sr_names r) x) in
    Ok (head ++ [ str "\ value.................: " ++ show_f v;
                  str "\ other value...........: " ++ List.concat (map (fun s => show_value (snd s) ++ str " ") (sr_solutions r));
                  str "\ variables.............: " ] ++ fixed ++ named)
  end.
(** The lines written one after the other, each with its end of line (main.cpp:1085-1145). *)
Definition as_file (lines : list text) : text := List.concat (map (fun l => l ++ [nl]) lines).
(** The solution file of one run, 1240-1269; solutions.back() of an empty list is undefined. *)
Definition before_run (pb : problem) : list text := resume_problem pb ++ [ str "\ solver starts: " ].
(** main.cpp:1240-1269, the file of one run *)
Definition solution_file (pb : problem) (r : sresult) : outcome text :=
  let head := before_run pb ++ [ str "\ solver finishes: " ++ end_time ] in
  match sr_status r with
  | st_success =>
    match last_solution r with
    | None => Crash
    | Some (_, v) =>
      let! body := resume_result r in
      Ok (as_file (head ++ [ str "\ Solution found: " ++ show_f v ] ++ body))
    end
  | _ => Ok (as_file (head ++ [ str "\ Solution not found. Missing constraints: " ++ show_int (sr_remaining r) ]))
  end.

(** make_problem of a file, lpcore.cpp:71-86 *)
Definition read_file (fuel : nat) (file : text) : pres (option raw_problem) :=
  match fs file with
  | None => P_ok None
  | Some t => match make_problem dn fuel t with
              | P_ok p => P_ok (Some p)
              | P_error _ => P_ok None
              | P_abort => P_abort
              | P_running => P_running
              end
  end.
(** One file, 1212-1304. The solution file is created before solving; an exception leaves its first
    lines. The check of 1221-1235 is never made (C72). *)
Definition main_one (fuel : nat) (file : text) : run_result ending :=
  match read_file fuel file with
  | P_ok None => Finished (mk_ending 0 [] [Cannot_read file])
  | P_ok (Some p) =>
    let pb := to_problem cost p in
    let name := file ++ str "-" ++ pid ++ str ".sol" in
    match run pb with
    | Finished (Ok r) => match solution_file pb r with
                         | Ok out => Finished (mk_ending 0 [(name, out)] [])
                         | _ => Aborted
                         end
    | Finished Throw => Finished (mk_ending 0 [(name, as_file (before_run pb))] [Exception_ file])
    | Finished Crash | Aborted => Aborted
    | OutOfFuel => OutOfFuel
    end
  | P_error _ | P_abort => Aborted
  | P_running => OutOfFuel
  end.

(** What one file of several adds to the results file, 1316-1328. *)
Definition result_line (r : sresult) : outcome text :=
  match sr_status r with
  | st_success =>
    match last_solution r with
    | None => Crash
    | Some (_, v) => Ok (show_f v ++ str " " ++ duration r ++ str "s " ++
                         List.concat (map (fun s => show_value (snd s) ++ str " ") (sr_solutions r)) ++ [nl])
    end
  | _ => Ok (str "No solution found." ++ [nl])
  end.
(** The loop over the files, 1309-1363: the results file so far and the messages. *)
Fixpoint main_several (fuel : nat) (files : list text) (out : text) (msgs : list message) : run_result (text * list message) :=
  match files with
  | [] => Finished (out, msgs)
  | file :: files' =>
    match read_file fuel file with
    | P_ok None => main_several fuel files' out (msgs ++ [Cannot_read file])
    | P_ok (Some p) =>
      let out := out ++ file ++ str " " in
      match run (to_problem cost p) with
      | Finished (Ok r) => match result_line r with
                           | Ok l => main_several fuel files' (out ++ l) msgs
                           | _ => Aborted
                           end
      | Finished Throw => main_several fuel files' out (msgs ++ [Exception_ file])
      | Finished Crash | Aborted => Aborted
      | OutOfFuel => OutOfFuel
      end
    | P_error _ | P_abort => Aborted
    | P_running => OutOfFuel
    end
  end.
(** main(), 1170-1368, after parse(): [ok]: parse_status is success. *)
Definition main_ (fuel : nat) (ok : bool) (files : list text) : run_result ending :=
  if negb ok then Finished (mk_ending 1 [] [Bad_command_line])
  else match files with
       | [] => Finished (mk_ending 0 [] [No_file_name])
       | [file] => main_one fuel file
       | _ => match main_several fuel files [] [] with
              | Finished (out, msgs) => Finished (mk_ending 0 [(str "baryonyx-" ++ pid ++ str ".res", out)] msgs)
              | Aborted => Aborted
              | OutOfFuel => OutOfFuel
              end
       end.
End Main.
