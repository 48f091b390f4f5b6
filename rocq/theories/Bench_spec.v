(** What a benchmark file is: a table written as comma separated values. *)
From Coq Require Import QArith Ascii String Permutation Sorted.
From Verif Require Import Base Problem_model Params_model Utils_model Writer_model Dynarray_model Bench_model.
Open Scope string_scope.
Open Scope list_scope.
Open Scope nat_scope.

(** A line: its parts separated by commas, and an end of line. *)
Definition csv_line (first : text) (others : list text) : text :=
  first ++ List.concat (map (fun s => ","%char :: s) others) ++ [ascii_of_nat 10].
(** A table: a header with the names of the solvers, then for each model its name and a part for
    each solver. *)
Definition csv_file (solvers : list text) (rows : list (text * list text)) : text :=
  csv_line (str "file") solvers ++ List.concat (map (fun r => csv_line (fst r) (snd r)) rows).

(** comma, tabulation, line feed, vertical tabulation, form feed, carriage return *)
Definition separator (c : ascii) : Prop := c = ","%char \/ 9 <= nat_of_ascii c <= 13.
Definition blank (c : ascii) : Prop := nat_of_ascii c = 32 \/ 9 <= nat_of_ascii c <= 13.
(** A part of a row of the table. *)
Definition is_part (w : text) : Prop := w <> [] /\ forall c, In c w -> ~ separator c.
(** The name of a model: a part that is not made of spaces. *)
Definition is_model_name (w : text) : Prop := is_part w /\ exists c, In c w /\ ~ blank c.
(** The name of a solver. *)
Definition is_solver_name (w : text) : Prop :=
  (forall c, In c w -> c <> ","%char /\ c <> ascii_of_nat 10) /\ exists c, In c w /\ ~ blank c.

(** The content of a benchmark in memory. *)
Definition contains (b : bench) (solvers : list text) (rows : list (text * list dbl)) : Prop :=
  bn_solvers b = solvers /\ map fst (bn_models b) = map fst rows /\
  forall i r, nth_error rows i = Some r ->
    List.length (snd r) = List.length solvers /\
    forall j v, nth_error (snd r) j = Some v -> dy_get (bn_array b) i j = Some v.

(** Dense ranks: the better of two values has the smaller rank, and the ranks are 1, 2, ...
    without a gap. *)
Definition dense_ranks (better : dbl -> dbl -> Prop) (values : list dbl) (ranks : list nat) : Prop :=
  List.length ranks = List.length values /\
  (forall i j v w r s, nth_error values i = Some v -> nth_error values j = Some w ->
     nth_error ranks i = Some r -> nth_error ranks j = Some s -> (r < s <-> better v w)) /\
  (forall i r, nth_error ranks i = Some r -> r = 1 \/ exists j, nth_error ranks j = Some (r - 1) /\ 2 <= r).
(** A solution is better than none; a smaller value is better for a minimization, a greater one
    for a maximization. *)
Definition has_solution (v : dbl) : Prop := v <> PosInf /\ v <> NegInf.
Definition better (ty : objective_type) (v w : dbl) : Prop :=
  has_solution v /\ (has_solution w -> match ty with minimize => dlt v w = true | maximize => dlt w v = true end).

(** std::sort: a permutation, without an element before a smaller one, when the comparison is a strict
    weak order on the elements. *)
Definition sorts_lists (std_sort : forall A : Type, (A -> A -> bool) -> list A -> list A) : Prop :=
  forall A lt l,
    (forall a, In a l -> lt a a = false) ->
    (forall a b c, In a l -> In b l -> In c l -> lt a b = true -> lt b c = true -> lt a c = true) ->
    (forall a b c, In a l -> In b l -> In c l -> lt a b = false -> lt b c = false -> lt a c = false) ->
    Permutation (std_sort A lt l) l /\
    StronglySorted (fun a b => lt b a = false) (std_sort A lt l).

(** The value recorded for a model: the last solution of a success; infinity when there is none. *)
Definition recorded (r : run_end) : dbl := match r with Run_success _ values => last values PosInf | _ => PosInf end.
(** What the solver must do on a model for the benchmark to go on: the file is read, and a success
    comes with a solution. *)
Definition run_ok (r : run_end) : Prop :=
  match r with Run_refused => False | Run_success _ values => values <> [] | _ => True end.
(** The direction of a problem; minimization when its file could not be read. *)
Definition kind (r : run_end) : objective_type :=
  match r with Run_success ty _ | Run_failure ty | Run_throw (Some ty) => ty | _ => minimize end.
(** The models whose optimization ended without an exception. *)
Definition no_exception (r : run_end) : bool := match r with Run_success _ _ | Run_failure _ => true | _ => false end.
Definition succeeds (r : run_end) : bool := match r with Run_success _ _ => true | _ => false end.
(** The runs of a benchmark: the models in the order of the table. *)
Definition runs (run : nat -> text -> run_end) (paths : list text) : list run_end :=
  map (fun ip => run (fst ip) (snd ip)) (combine (seq 0 (List.length paths)) paths).
(** The file of a model for the table base.csv: in the directory base, with the extension .lp. *)
Definition model_path (base nm path : text) : Prop :=
  (exists stem, nm = stem ++ str ".lp" /\ path = base ++ str "/" ++ nm) \/
  ((forall stem, nm <> stem ++ str ".lp") /\ path = base ++ str "/" ++ nm ++ str ".lp").
(** The last extension of the name is not lp followed by something else. *)
Definition plain_name (nm : text) : Prop :=
  forall stem rest, nm = stem ++ str ".lp" ++ rest -> In "."%char rest \/ rest = [].
(** A column added at the end of a table. *)
Definition add_column (rows : list (text * list dbl)) (column : list dbl) : list (text * list dbl) :=
  map (fun rv => (fst (fst rv), snd (fst rv) ++ [snd rv])) (combine rows column).
(** The values of a row can be compared: they are numbers, and the missing ones are all written in the
    same way. *)
Definition comparable (values : list dbl) : Prop := ~ In NaN values /\ ~ (In PosInf values /\ In NegInf values).
(** The sum of a column of ranks. *)
Definition rank_sum (ranks : list (list nat)) (p : nat) : nat := fold_right (fun r s => nth p r 0 + s) 0 ranks.
(** A table whose names can be read back. *)
Definition good_table (solvers : list text) (rows : list (text * list text)) : Prop :=
  (forall s, In s solvers -> is_solver_name s) /\
  (forall s, In s (removelast solvers) -> List.length s <> 1) /\
  (forall r, In r rows -> is_model_name (fst r) /\ Forall is_part (snd r) /\ List.length (snd r) = List.length solvers).
(** The table with its numbers: a part that is not a number counts as no solution. *)
Definition number_in (to_double : text -> option dbl) (w : text) : dbl :=
  match to_double (trim w) with Some d => d | None => PosInf end.
Definition table_values (to_double : text -> option dbl) (rows : list (text * list text)) : list (text * list dbl) :=
  map (fun r => (fst r, map (number_in to_double) (snd r))) rows.
Definition table_parts (show : dbl -> text) (rows : list (text * list dbl)) : list (text * list text) :=
  map (fun r => (fst r, map show (snd r))) rows.
Definition rank_parts (ranks : list nat) : list text := map (fun r => show_int (Z.of_nat r)) ranks.
(** The mean of a column of ranks. *)
Definition rank_mean (ranks : list (list nat)) (p : nat) : dbl :=
  Fin (Z.of_nat (rank_sum ranks p) # Pos.of_nat (List.length ranks)).
