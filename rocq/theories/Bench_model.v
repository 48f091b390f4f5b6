(** Model of the benchmark mode of the command line tool, app/src/benchmark.cpp. The optimizer, the
    files, std::sort, sscanf and the printing of numbers are parameters. What is printed on the
    terminal is in BenchShow_model, except the number of solutions announced and the undefined
    behaviours of show_to_console. *)
From Coq Require Import QArith Ascii String.
From Verif Require Import Base Problem_model Params_model Utils_model Writer_model ResultIO_model Dynarray_model.
Open Scope string_scope.
Open Scope list_scope.
Open Scope nat_scope.

(** std::string_view::operator== *)
Definition same_text (a b : text) : bool := if list_eq_dec ascii_dec a b then true else false.
(** The comma that separates the columns, 308-331 and 418-501. *)
Definition comma : ascii := ","%char.
(** csv_whitespace, 44-62: the blanks of the "C" locale without the space and with the comma *)
Definition csv_space (c : ascii) : bool := Ascii.eqb c comma || existsb (fun n => Nat.eqb (nat_of_ascii c) n) [9; 10; 11; 12; 13].

(** std::string::rfind *)
Fixpoint is_prefix (p l : text) : bool :=
  match p, l with
  | [], _ => true
  | a :: p', b :: l' => Ascii.eqb a b && is_prefix p' l'
  | _, [] => false
  end.
(** std::string::rfind: the last position, [None] is npos *)
Fixpoint rfind (p l : text) : option nat :=
  match l with
  | [] => if is_prefix p [] then Some 0 else None
  | c :: l' => match rfind p l' with
               | Some i => Some (S i)
               | None => if is_prefix p l then Some 0 else None
               end
  end.
(** substr(0, pos) *)
Definition before (pos : option nat) (l : text) : text := match pos with Some i => firstn i l | None => l end.
(** make_stats_file_name, 65-69 *)
Definition stats_file_name (f : text) : text := before (rfind (str ".") f) f ++ str "-stats.csv".
(** have_lp_extension, 71-80: the three characters from the last point *)
Definition have_lp_extension (f : text) : bool :=
  match rfind (str ".") f with None => false | Some pos => same_text (firstn 3 (skipn pos f)) (str ".lp") end.
(** model::filename, 237-241 *)
Definition model_file (nm : text) : text := if have_lp_extension nm then nm else nm ++ str ".lp".
(** 626: the directory of the models *)
Definition model_dir (f : text) : text := before (rfind (str ".csv") f) f ++ str "/".

(** is_valid, 88-93 *)
Definition is_valid (d : dbl) : bool := match d with NegInf | PosInf => false | _ => true end.
(** result, 95-107 *)
Record ranked := mk_ranked { rk_value : dbl; rk_position : nat; rk_rank : nat }.
(** The comparisons of sort_on_value, 109-140. *)
Definition value_before (ty : objective_type) (a b : ranked) : bool :=
  if is_valid (rk_value a) then
    if is_valid (rk_value b) then
      match ty with minimize => dlt (rk_value a) (rk_value b) | maximize => dlt (rk_value b) (rk_value a) end
    else true
  else false.
(** 361-365 and 409-413 *)
Definition position_before (a b : ranked) : bool := Nat.ltb (rk_position a) (rk_position b).
(** 388-393 *)
Definition mean_before (a b : ranked) : bool := dlt (rk_value a) (rk_value b).

(** What std::sort needs: a strict weak order on the elements. *)
Definition strict_weak {A} (lt : A -> A -> bool) (l : list A) : bool :=
  forallb (fun a => negb (lt a a)) l &&
  forallb (fun a => forallb (fun b => forallb (fun c =>
    implb (lt a b && lt b c) (lt a c) &&
    implb (negb (lt a b) && negb (lt b c)) (negb (lt a c))) l) l) l.

(** 268-280 *)
Record element := mk_element { el_solution : dbl; el_success : bool }.
(** 268-280: the default values *)
Definition element0 : element := mk_element PosInf false.
(** 273-276: a value assigned to an element *)
Definition element_of (d : dbl) : element := mk_element d true.

(** 282-284 *)
Record bench := mk_bench { bn_models : list (text * objective_type); bn_solvers : list text; bn_array : dynarray dbl }.
(** bench b; 622 *)
Definition bench0 : bench := mk_bench [] [] dy_new.
(** The errors of load, 165-190. *)
Inductive load_error := read_header_error | solver_name_error | model_name_error (line : Z) | read_data_error (line : Z).

(** push_back_solver and make_solver, 253-261 and 297-306; push_back_model and make_model, 207-214 and
    285-295: the name is kept as it is. *)
Definition name_ok (nm : text) : bool := match trim nm with [] => false | _ => true end.

(** getline, 423: up to the end of the line or of the text *)
Fixpoint cut_line (l : text) : text * text :=
  match l with
  | [] => ([], [])
  | c :: l' => if Ascii.eqb c nl then ([], l') else (c :: fst (cut_line l'), snd (cut_line l'))
  end.
(** getline, 423: [None] when there is nothing left to read *)
Definition getline (t : text) : option (text * text) := match t with [] => None | _ => Some (cut_line t) end.
(** The parts of the header between the commas, 430-438. *)
Fixpoint split_commas (l : text) : list text :=
  match l with
  | [] => [[]]
  | c :: l' =>
    if Ascii.eqb c comma then [] :: split_commas l'
    else match split_commas l' with f :: fs => (c :: f) :: fs | [] => [[c]] end
  end.
(** 434-463, one part after the other; 446: begin + 1 != end *)
Fixpoint read_solvers (fs : list text) : option (list text) :=
  match fs with
  | [] => Some []
  | [f] => if name_ok f then Some [f] else None
  | f :: fs' =>
    if Nat.eqb (List.length f) 1 then None
    else if name_ok f then do r <- read_solvers fs'; Some (f :: r) else None
  end.

(** is >> buffer with csv_whitespace, for the whole text: the words, and whether the stream is still
    good() after each of them (the word does not end with the text). *)
Fixpoint csv_words (cur l : text) : list (text * bool) :=
  match l with
  | [] => match cur with [] => [] | _ => [(rev cur, false)] end
  | c :: l' =>
    if csv_space c then match cur with [] => csv_words [] l' | _ => (rev cur, true) :: csv_words [] l' end
    else csv_words (c :: cur) l'
  end.

Section Bench.
(** to_double, main.hpp:58-84, see Cli_model *)
Variable to_double : text -> option dbl.
(** 492-494 *)
Definition cell_of (w : text) : dbl := match to_double (trim w) with Some d => d | None => PosInf end.

(** 470-500. [left]: the values still to be read in the row. The outer [None]: array is accessed out
    of bounds. *)
Fixpoint read_rows (ws : list (text * bool)) (left : nat) (line : Z) (b : bench) : option (bench + load_error) :=
  match ws with
  | [] => Some (match left with O => inl b | _ => inr (read_data_error line) end)
  | (w, good) :: ws' =>
    match left with
    | O =>
      if negb good then Some (inl b)
      else if name_ok w then
        let models := bn_models b ++ [(w, minimize)] in
        match List.length (bn_solvers b) with
        | O => read_rows ws' 0 (line + 1)%Z (mk_bench models (bn_solvers b) (bn_array b))
        | n => read_rows ws' n line (mk_bench models (bn_solvers b) (dy_push_line (dofZ 0) (bn_array b)))
        end
      else Some (inr (model_name_error line))
    | S left' =>
      do a <- dy_set (bn_array b) (Nat.pred (dy_rows (bn_array b))) (List.length (bn_solvers b) - left) (cell_of w);
      read_rows ws' left' (match left' with O => line + 1 | _ => line end)%Z (mk_bench (bn_models b) (bn_solvers b) a)
    end
  end.
(** load, 418-501 *)
Definition load (t : text) : option (bench + load_error) :=
  match getline t with
  | None => Some (inr read_header_error)
  | Some (header, rest) =>
    match read_solvers (tl (split_commas header)) with
    | None => Some (inr solver_name_error)
    | Some solvers =>
      read_rows (csv_words [] rest) 0 2
        (mk_bench [] solvers (match solvers with [] => dy_new | _ => dy_init (dofZ 0) (List.length solvers) dy_new end))
    end
  end.

(** The formats "{:.10g}" and "{}" on a double. *)
Variables (show10 show_double : dbl -> text).
(** save_header, 308-315 *)
Definition header_text (b : bench) (name : text) : text :=
  str "file" ++ List.concat (map (fun s => comma :: s) (bn_solvers b)) ++ comma :: name ++ [nl].
(** The cells of a row, 325-327. *)
Fixpoint cells_text (a : dynarray dbl) (i : nat) (cols : list nat) : option text :=
  match cols with
  | [] => Some []
  | j :: cols' => do v <- dy_get a i j; do r <- cells_text a i cols'; Some (show10 v ++ comma :: r)
  end.
(** 323-330 *)
Fixpoint rows_text (b : bench) (models : list text) (i : nat) (c : list element) : option text :=
  match models with
  | [] => Some []
  | nm :: models' =>
    do cells <- cells_text (bn_array b) i (seq 0 (List.length (bn_solvers b)));
    match c with
    | [] => None
    | e :: c' =>
      do r <- rows_text b models' (S i) c';
      Some (nm ++ comma :: cells ++ show10 (el_solution e) ++ nl :: r)
    end
  end.
(** save, 317-331 *)
Definition save_text (b : bench) (name : text) (c : list element) : option text :=
  do rows <- rows_text b (map fst (bn_models b)) 0 c; Some (header_text b name ++ rows).

(** std::sort *)
Variable std_sort : forall A : Type, (A -> A -> bool) -> list A -> list A.
(** std::sort is undefined when the comparison is not a strict weak order. *)
Definition sort_with {A} (lt : A -> A -> bool) (l : list A) : option (list A) :=
  if strict_weak lt l then Some (std_sort A lt l) else None.

(** 343-345: the values of a row. array(i, j) is also read for j = solvers.size(). *)
Fixpoint line_values (a : dynarray dbl) (i : nat) (cols : list nat) : option (list dbl) :=
  match cols with
  | [] => Some []
  | j :: cols' => do v <- dy_get a i j; do r <- line_values a i cols'; Some (v :: r)
  end.
(** 343-345 *)
Definition make_line (vs : list dbl) : list ranked :=
  map (fun vp => mk_ranked (fst vp) (snd vp) 0) (combine vs (seq 0 (List.length vs))).
(** 358-363 and 398-403 *)
Fixpoint ranks_from (prev : dbl) (rank : nat) (l : list ranked) : list ranked :=
  match l with
  | [] => []
  | r :: l' =>
    let rank' := if deq (rk_value r) prev then rank else S rank in
    mk_ranked (rk_value r) (rk_position r) rank' :: ranks_from (rk_value r) rank' l'
  end.
(** 350-363 and 395-403; line[0] of an empty vector is undefined *)
Definition give_ranks (l : list ranked) : option (list ranked) :=
  match l with
  | [] => None
  | r :: l' => Some (mk_ranked (rk_value r) (rk_position r) 1 :: ranks_from (rk_value r) 1 l')
  end.
(** 365-366 *)
Fixpoint add_ranks (l : list ranked) (stats : list nat) : option (list nat) :=
  match l with
  | [] => Some stats
  | r :: l' => do stats' <- list_modify stats (rk_position r) (fun s => s + rk_rank r); add_ranks l' stats'
  end.
(** 374-376 and 415-417 *)
Definition ranks_text (l : list nat) : text := List.concat (map (fun r => comma :: show_int (Z.of_nat r)) l).
(** 342-378, one row: the ranks in the order of the columns and the sums of ranks *)
Definition stats_row (b : bench) (i : nat) (ty : objective_type) (e : element) (stats : list nat) : option (list nat * list nat) :=
  let n := List.length (bn_solvers b) in
  do vs <- line_values (bn_array b) i (seq 0 (S n));
  do l <- sort_with (value_before ty) (make_line (firstn n vs ++ [el_solution e]));
  do l <- give_ranks l;
  do stats <- add_ranks l stats;
  do l <- sort_with position_before l;
  Some (map rk_rank l, stats).
(** 342-378 *)
Fixpoint stats_rows (b : bench) (models : list (text * objective_type)) (i : nat) (c : list element) (stats : list nat)
  : option (text * list nat) :=
  match models with
  | [] => Some ([], stats)
  | (nm, ty) :: models' =>
    match c with
    | [] => None
    | e :: c' =>
      do (ranks, stats) <- stats_row b i ty e stats;
      do (t, stats) <- stats_rows b models' (S i) c' stats;
      Some (nm ++ ranks_text ranks ++ nl :: t, stats)
    end
  end.
(** 382-383: the quotient of two integers; 0 / 0 is NaN *)
Definition mean_of (sum count : nat) : dbl :=
  match count with O => NaN | _ => Fin (Z.of_nat sum # Pos.of_nat count) end.
(** 380-417 *)
Definition final_text (count : nat) (stats : list nat) : option text :=
  let means := map (fun s => mean_of s count) stats in
  do l <- sort_with mean_before (make_line means);
  do l <- give_ranks l;
  do l <- sort_with position_before l;
  Some (str "mean" ++ List.concat (map (fun m => comma :: show_double m) means) ++ nl ::
        str "rank" ++ ranks_text (map rk_rank l) ++ [nl]).
(** save_stats, 333-417 *)
Definition stats_text (b : bench) (name : text) (c : list element) : option text :=
  do (rows, stats) <- stats_rows b (bn_models b) 0 c (repeat 0 (S (List.length (bn_solvers b))));
  do final <- final_text (List.length (bn_models b)) stats;
  Some (header_text b name ++ rows ++ final).

(** What make_problem and optimize do for one model, 637-652: a file that is refused, an exception
    (before or after the type of the problem is known), a success with the values of its
    solutions, or no success. *)
Inductive run_end := Run_refused | Run_throw (ty : option objective_type) | Run_success (ty : objective_type) (values : list dbl)
  | Run_failure (ty : objective_type).
(** The i-th model, and the name of its file. *)
Variable run : nat -> text -> run_end.
(** 628-684. [None]: a model file is refused, the benchmark stops. The outer [None]: solutions.back()
    of an empty list. *)
Fixpoint run_models (dir : text) (models : list (text * objective_type)) (i : nat)
  : option (option (list (text * objective_type) * list element)) :=
  match models with
  | [] => Some (Some ([], []))
  | (nm, ty0) :: models' =>
    let next ty e :=
      do r <- run_models dir models' (S i);
      Some (match r with Some (ms, es) => Some ((nm, ty) :: ms, e :: es) | None => None end) in
    match run i (dir ++ model_file nm) with
    | Run_refused => Some None
    | Run_throw ty => next (match ty with Some t => t | None => ty0 end) element0
    | Run_success ty values => match rev values with v :: _ => next ty (element_of v) | [] => None end
    | Run_failure ty => next ty (element_of PosInf)
    end
  end.
(** 690-697 *)
Definition found (c : list element) : nat := List.length (filter el_success c).

(** get_digits_number, 82-86: the logarithm of zero and of NaN cannot be converted to int. *)
Definition digits_ok (d : dbl) : bool :=
  match d with NaN => false | Fin q => negb (Qeq_bool q 0) | _ => true end.
(** 508-542: what is undefined in show_to_console: get_digits_number and, without a model, the largest
    name. *)
Definition console_ok (b : bench) (c : list element) : bool :=
  match bn_models b with
  | [] => false
  | ms =>
    forallb (fun i => forallb (fun j => match dy_get (bn_array b) i j with
                                        | Some v => negb (is_valid v) || digits_ok v
                                        | None => false
                                        end) (seq 0 (List.length (bn_solvers b)))) (seq 0 (List.length ms))
    && forallb (fun e => negb (el_success e && is_valid (el_solution e)) || digits_ok (el_solution e)) c
  end.

(** How benchmark ends, 779-845; the error of load is kept. *)
Inductive bench_result := Bench_true | Bench_open_error | Bench_load_error (e : load_error) | Bench_result_error
  | Bench_stats_error | Bench_crash.
(** The files written, the numbers announced (found, models) and the end. *)
Record bench_end := mk_bench_end { be_files : list (text * text); be_found : option (nat * nat); be_result : bench_result }.
(** try_benchmark, 613-774. [fs]: the files that can be opened; [writable]: the files that can be
    written. The average distances (702-751) and the table of the terminal are in BenchShow_model. *)
Definition benchmark (fs : text -> option text) (writable : text -> bool) (file name : text) : bench_end :=
  match fs file with
  | None => mk_bench_end [] None Bench_open_error
  | Some t =>
    match load t with
    | None => mk_bench_end [] None Bench_crash
    | Some (inr e) => mk_bench_end [] None (Bench_load_error e)
    | Some (inl b) =>
      match run_models (model_dir file) (bn_models b) 0 with
      | None => mk_bench_end [] None Bench_crash
      | Some None => mk_bench_end [] None Bench_open_error
      | Some (Some (models, c)) =>
        let b := mk_bench models (bn_solvers b) (bn_array b) in
        let announced := Some (found c, List.length c) in
        if writable file then
          match save_text b name c with
          | None => mk_bench_end [] announced Bench_crash
          | Some t1 =>
            if writable (stats_file_name file) then
              match stats_text b name c with
              | None => mk_bench_end [(file, t1)] announced Bench_crash
              | Some t2 =>
                mk_bench_end [(file, t1); (stats_file_name file, t2)] announced
                  (if console_ok b c then Bench_true else Bench_crash)
              end
            else mk_bench_end [(file, t1)] announced Bench_stats_error
          end
        else mk_bench_end [] announced Bench_result_error
      end
    end
  end.
End Bench.
