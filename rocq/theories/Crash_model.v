(** Model of what the tools ask from the file system, in order, and of what a run that is interrupted
    leaves: app/src/main.cpp:1240-1269 and 1300-1363, app/src/benchmark.cpp:613-774.

    A stream (std::ofstream) keeps what is printed in a buffer: at any moment the file holds what has been
    flushed and some first part of the rest. Only an interruption of the program is modelled (a signal, an
    abort): what the stream has given to the system is not lost. *)
From Coq Require Import String Ascii.
From Verif Require Import Base Problem_model Classify_model Validate_model Preprocess_model ResultIO_model Lexer_model Parser_model Writer_model
  Solver_model EndToEnd_model Main_model Params_model Dynarray_model Bench_model.
Open Scope nat_scope.

(** The requests: opening a file for writing empties it (std::ofstream, main.cpp:1242 and 1305,
    benchmark.cpp:755 and 764); printing; flushing (main.cpp:1332) or closing (the destructors). *)
Inductive request := Open_file (f : text) | Print_to (f t : text) | Flush_file (f : text).
(** A file: what it surely holds, and what is still in the buffer of the stream. Not in the code. *)
Record held := mk_held { h_safe : text; h_waiting : text }.
(** The files, by name. Not in the code. *)
Definition disk := text -> option held.
(** The files before the program starts, from their contents. Not in the code. *)
Definition disk_of (fs : text -> option text) : disk := fun f => option_map (fun t => mk_held t []) (fs f).
(** Replaces a file of the disk. Not in the code. *)
Definition put (d : disk) (f : text) (h : held) : disk := fun g => if text_eqb f g then Some h else d g.
(** The effect of a request; printing to a file that could not be opened does nothing. *)
Definition request_effect (q : request) (d : disk) : disk :=
  match q with
  | Open_file f => put d f (mk_held [] [])
  | Print_to f t => match d f with Some h => put d f (mk_held (h_safe h) (h_waiting h ++ t)) | None => d end
  | Flush_file f => match d f with Some h => put d f (mk_held (h_safe h ++ h_waiting h) []) | None => d end
  end.
(** The effect of several requests. *)
Definition effects (qs : list request) (d : disk) : disk := fold_left (fun d q => request_effect q d) qs d.

Section Traces.
Context {D : Type} (dn : dops D) (cost : D -> Z).
Variable run : problem -> run_result (outcome sresult).
Variable fs : text -> option text.
Variables (pid end_time : text) (method duration loops : sresult -> text) (show_f show_value : option Z -> text).

(** The lines printed one by one. *)
Definition print_lines (f : text) (lines : list text) : list request := map (fun l => Print_to f (l ++ [nl])) lines.
(** The requests for one file, main.cpp:1212-1304: the stream is opened and the first lines printed before
    solving (1242-1250); the stream is closed at the end of the block, or when an exception leaves it; a
    program that aborts, and one that does not answer, does nothing more. *)
Definition one_requests (fuel : nat) (file : text) : list request :=
  match read_file dn fs fuel file with
  | P_ok (Some p) =>
    let pb := to_problem cost p in
    let name := file ++ str "-" ++ pid ++ str ".sol" in
    Open_file name :: print_lines name (before_run pb) ++
    match run pb with
    | Finished (Ok r) =>
      Print_to name (str "\ solver finishes: " ++ end_time ++ [nl]) ::
      match sr_status r with
      | st_success =>
        match last_solution r with
        | None => []
        | Some (_, v) =>
          Print_to name (str "\ Solution found: " ++ show_f v ++ [nl]) ::
          match resume_result method duration loops show_f show_value r with
          | Ok body => print_lines name body ++ [Flush_file name]
          | _ => []
          end
        end
      | _ => [Print_to name (str "\ Solution not found. Missing constraints: " ++ show_int (sr_remaining r) ++ [nl]); Flush_file name]
      end
    | Finished Throw => [Flush_file name]
    | _ => []
    end
  | _ => []
  end.

(** The requests for one file of several, main.cpp:1309-1363. The stream is flushed (1332) only when the run
    has answered. *)
Definition file_requests (fuel : nat) (name file : text) : list request :=
  match read_file dn fs fuel file with
  | P_ok (Some p) =>
    Print_to name (file ++ str " ") ::
    match run (to_problem cost p) with
    | Finished (Ok r) => match result_line duration show_f show_value r with
                         | Ok l => [Print_to name l; Flush_file name]
                         | _ => []
                         end
    | _ => []
    end
  | _ => []
  end.
(** Does the loop of main.cpp:1309-1363 go on after this file? *)
Definition goes_on (fuel : nat) (file : text) : bool :=
  match read_file dn fs fuel file with
  | P_ok None => true
  | P_ok (Some p) =>
    match run (to_problem cost p) with
    | Finished (Ok r) => match result_line duration show_f show_value r with Ok _ => true | _ => false end
    | Finished Throw => true
    | _ => false
    end
  | _ => false
  end.
(** The loop of main.cpp:1309-1363, then the end of the stream. *)
Fixpoint loop_requests (fuel : nat) (name : text) (files : list text) : list request :=
  match files with
  | [] => [Flush_file name]
  | file :: files' => file_requests fuel name file ++ (if goes_on fuel file then loop_requests fuel name files' else [])
  end.
(** main.cpp:1300-1363 *)
Definition several_requests (fuel : nat) (files : list text) : list request :=
  let name := str "baryonyx-" ++ pid ++ str ".res" in
  Open_file name :: loop_requests fuel name files.
End Traces.

Section Bench_traces.
Variable to_double : text -> option dbl.
Variables (show10 show_double : dbl -> text).
Variable std_sort : forall A : Type, (A -> A -> bool) -> list A -> list A.
Variable run : nat -> text -> run_end.
(** The requests of a benchmark, benchmark.cpp:613-774. The models are run before the table is opened for
    writing (755); the texts of save and save_stats are printed in one request, which allows the same
    interruptions as many requests. *)
Definition bench_requests (fs : text -> option text) (writable : text -> bool) (file name : text) : list request :=
  match fs file with
  | Some t =>
    match load to_double t with
    | Some (inl b) =>
      match run_models run (model_dir file) (bn_models b) 0 with
      | Some (Some (models, c)) =>
        let b := mk_bench models (bn_solvers b) (bn_array b) in
        if writable file then
          Open_file file ::
          match save_text show10 b name c with
          | None => []
          | Some t1 =>
            Print_to file t1 :: Flush_file file ::
            (if writable (stats_file_name file) then
               Open_file (stats_file_name file) ::
               match stats_text show_double std_sort b name c with
               | None => []
               | Some t2 => [Print_to (stats_file_name file) t2; Flush_file (stats_file_name file)]
               end
             else [])
          end
        else []
      | _ => []
      end
    | _ => []
    end
  | None => []
  end.
End Bench_traces.
