(** C84-C89, C124: the benchmark mode of the command line tool. *)
From Coq Require Import QArith Ascii String Permutation Sorted Lqa.
From Verif Require Import Base Problem_model Params_model Utils_model Writer_model ResultIO_model
  Dynarray_model Bench_model Bench_spec Bench_proofs Bench_proofs2 Bench_proofs3 Bench_proofs4 Bench_proofs5.
Open Scope string_scope.
Open Scope list_scope.
Open Scope nat_scope.

(** ** Values for the examples *)
Definition digits_value (w : text) : option Z :=
  fold_left (fun acc c => do a <- acc;
    (let n := nat_of_ascii c in if Nat.leb 48 n && Nat.leb n 57 then Some (a * 10 + Z.of_nat (n - 48))%Z else None)) w (Some 0%Z).
Definition read0 (w : text) : option dbl :=
  if same_text w (str "nan") then Some NaN
  else if same_text w (str "-inf") then Some NegInf
  else if same_text w (str "inf") then Some PosInf
  else do z <- digits_value w; Some (dofZ z).
Definition show0 (d : dbl) : text :=
  match d with NaN => str "nan" | NegInf => str "-inf" | PosInf => str "inf" | Fin q => show_int (Qnum q) end.
Definition sort0 (A : Type) (lt : A -> A -> bool) (l : list A) : list A := isort lt l.
Definition one_file (f t : text) (g : text) : option text := if same_text g f then Some t else None.
(** The first model is solved, the optimizer fails on the second one, an exception ends the others. *)
Definition run0 (i : nat) (path : text) : run_end :=
  match i with
  | 0 => Run_success maximize [dofZ 3; dofZ 7]
  | 1 => Run_failure minimize
  | _ => Run_throw (Some minimize)
  end.
Definition solvers0 : list text := [str "cplex"; str "itm"].
Definition rows0 : list (text * list text) :=
  [(str "a", [str "7"; str "9"]); (str "b.lp", [str " 12 "; str "inf"]); (str "c", [str "none"; str "5"])].
Definition paths0 : list text := [str "dir/t/a.lp"; str "dir/t/b.lp"; str "dir/t/c.lp"].

Lemma plain_no_point nm : ~ In "."%char nm -> plain_name nm.
Proof. intros H stem rest ->. exfalso. apply H. apply in_or_app. right. left. reflexivity. Qed.
Lemma not_lp nm : ~ In "."%char nm -> forall stem, nm <> stem ++ str ".lp".
Proof. intros H stem ->. apply H. apply in_or_app. right. left. reflexivity. Qed.
Ltac chars := let K := fresh in intros K; cbn in K; repeat (destruct K as [K|K]; [discriminate K|]); contradiction K.
Ltac part := split; [discriminate|]; let c := fresh in let K := fresh in intros c K; cbn in K;
  repeat (destruct K as [<-|K]; [intros [F|F]; [discriminate F|cbn in F; lia]|]); contradiction K.
Ltac some_char := eexists; split; [left; reflexivity|intros [F|F]; cbn in F; lia].
Lemma solvers0_names : forall s, In s solvers0 -> is_solver_name s.
Proof.
  intros s [<-|[<-|[]]]; (split; [|some_char]); intros c K; cbn in K; repeat (destruct K as [<-|K]; [split; discriminate|]); contradiction K.
Qed.
Lemma good0 : good_table solvers0 rows0.
Proof.
  split; [exact solvers0_names|]. split.
  - intros s [<-|[]]. cbn. lia.
  - intros r [<-|[<-|[<-|[]]]]; cbn [fst snd]; (split; [split; [part|some_char]|]); (split; [|reflexivity]); repeat (constructor; [part|]); constructor.
Qed.
Lemma plain0 : Forall plain_name (map fst rows0).
Proof.
  constructor; [apply plain_no_point; chars|]. constructor.
  - intros stem rest E. cbn [fst] in E. destruct stem as [|x [|y stem]].
    + discriminate E.
    + cbn in E. injection E as _ E. right. symmetry. exact E.
    + exfalso. apply (f_equal (@List.length _)) in E. rewrite !app_length in E. cbn in E. lia.
  - constructor; [apply plain_no_point; chars|constructor].
Qed.
Lemma model_paths0 : Forall2 (model_path (str "dir/t")) (map fst rows0) paths0.
Proof.
  constructor; [right; split; [apply not_lp; chars|reflexivity]|]. constructor; [left; exists (str "b"); split; reflexivity|].
  constructor; [right; split; [apply not_lp; chars|reflexivity]|constructor].
Qed.
Lemma runs0 : Forall run_ok (runs run0 paths0).
Proof. repeat constructor. discriminate. Qed.

(** ** C84: a table is loaded as it is written *)
Theorem C84_table_is_loaded_partial (to_double : text -> option dbl) (solvers : list text) (rows : list (text * list text)) :
  good_table solvers rows ->
  exists b, load to_double (csv_file solvers rows) = Some (inl b) /\ contains b solvers (table_values to_double rows).
Proof. intros (H1 & H2 & H3). exact (load_table to_double solvers rows H1 H2 H3). Qed.
Example C84_ex : good_table solvers0 rows0 /\
  table_values read0 rows0 = [(str "a", [dofZ 7; dofZ 9]); (str "b.lp", [dofZ 12; PosInf]); (str "c", [PosInf; dofZ 5])].
Proof. split; [exact good0|reflexivity]. Qed.
(** Whatever the text is, loading is defined, and what is loaded is a table with acceptable names. *)
Theorem C84_any_text (to_double : text -> option dbl) (t : text) :
  load to_double t <> None /\
  forall b, load to_double t = Some (inl b) -> exists rows, contains b (bn_solvers b) rows /\
    (forall r, In r rows -> is_model_name (fst r)) /\ (forall s, In s (bn_solvers b) -> is_solver_name s).
Proof.
  destruct (load_any to_double t) as [H1 H2]. split; [exact H1|]. intros b Hb. destruct (H2 b Hb) as (rows & G1 & _ & G3 & G4 & _).
  exists rows. split; [exact G1|]. split; [exact G3|exact G4].
Qed.
Example C84_any_ex : exists b, load read0 (str "file,cplex" ++ [nl] ++ str "m,3" ++ [nl] ++ str "n,x") = Some (inl b).
Proof. eexists. vm_compute. reflexivity. Qed.
(** The name of a solver made of a single character is refused, unless it is the last one. *)
Theorem C84_refuted : exists solvers rows,
  (forall s, In s solvers -> is_solver_name s) /\
  (forall r, In r rows -> is_model_name (fst r) /\ Forall is_part (snd r) /\ List.length (snd r) = List.length solvers) /\
  forall to_double, load to_double (csv_file solvers rows) = Some (inr solver_name_error).
Proof.
  exists [str "a"; str "itm"], [(str "m", [str "1"; str "2"])]. split; [|split].
  - intros s [<-|[<-|[]]]; (split; [|some_char]); intros c K; cbn in K; repeat (destruct K as [<-|K]; [split; discriminate|]); contradiction K.
  - intros r [<-|[]]; cbn [fst snd]; (split; [split; [part|some_char]|]); (split; [|reflexivity]); repeat (constructor; [part|]); constructor.
  - intros to_double. reflexivity.
Qed.

(** ** C85: a column is added to the table *)
Theorem C85_column_is_added_partial (to_double : text -> option dbl) (show10 show_double : dbl -> text)
  (std_sort : forall A : Type, (A -> A -> bool) -> list A -> list A) (run : nat -> text -> run_end)
  (fs : text -> option text) (writable : text -> bool) (base name : text)
  (solvers : list text) (rows : list (text * list text)) (paths : list text) :
  let file := base ++ str ".csv" in
  let column := runs run paths in
  let table := add_column (table_values to_double rows) (map recorded column) in
  fs file = Some (csv_file solvers rows) -> good_table solvers rows -> Forall plain_name (map fst rows) ->
  Forall2 (model_path base) (map fst rows) paths -> Forall run_ok column -> writable file = true ->
  let written := csv_file (solvers ++ [name]) (table_parts show10 table) in
  In (file, written) (be_files (benchmark to_double show10 show_double std_sort run fs writable file name)) /\
  (is_solver_name name -> (forall s, In s solvers -> List.length s <> 1) ->
   (forall r v, In r table -> In v (snd r) -> is_part (show10 v) /\ to_double (trim (show10 v)) = Some v) ->
   exists b, load to_double written = Some (inl b) /\ contains b (solvers ++ [name]) table).
Proof.
  intros file column table Hfs Hg Hp Hpa Hr Hw written. split.
  - exact (result_file to_double show10 show_double std_sort run fs writable base name solvers rows paths Hfs Hg Hp Hpa Hr Hw).
  - intros Hn H1 Hv. unfold written.
    destruct (good_reload to_double show10 run name solvers rows paths Hg Hn H1 Hv) as [(G1 & G2 & G3) E].
    destruct (load_table to_double _ _ G1 G2 G3) as (b & El & Hc). exists b. split; [exact El|]. exact (eq_ind _ (fun x => contains b (solvers ++ [name]) x) Hc _ E).
Qed.
Example C85_ex :
  let table := add_column (table_values read0 rows0) (map recorded (runs run0 paths0)) in
  good_table solvers0 rows0 /\ Forall plain_name (map fst rows0) /\ Forall2 (model_path (str "dir/t")) (map fst rows0) paths0 /\
  Forall run_ok (runs run0 paths0) /\ is_solver_name (str "new") /\ (forall s, In s solvers0 -> List.length s <> 1) /\
  (forall r v, In r table -> In v (snd r) -> is_part (show0 v) /\ read0 (trim (show0 v)) = Some v) /\
  table = [(str "a", [dofZ 7; dofZ 9; dofZ 7]); (str "b.lp", [dofZ 12; PosInf; PosInf]); (str "c", [PosInf; dofZ 5; PosInf])] /\
  be_files (benchmark read0 show0 show0 sort0 run0 (one_file (str "dir/t.csv") (csv_file solvers0 rows0)) (fun _ => true) (str "dir/t.csv") (str "new")) =
    [(str "dir/t.csv", str "file,cplex,itm,new" ++ [nl] ++ str "a,7,9,7" ++ [nl] ++ str "b.lp,12,inf,inf" ++ [nl] ++ str "c,inf,5,inf" ++ [nl]);
     (str "dir/t-stats.csv", str "file,cplex,itm,new" ++ [nl] ++ str "a,2,1,2" ++ [nl] ++ str "b.lp,1,2,2" ++ [nl] ++ str "c,2,1,2" ++ [nl] ++
        str "mean,5,4,6" ++ [nl] ++ str "rank,2,1,3" ++ [nl])].
Proof.
  split; [exact good0|]. split; [exact plain0|]. split; [exact model_paths0|]. split; [exact runs0|]. split.
  { split; [|some_char]. intros c K; cbn in K; repeat (destruct K as [<-|K]; [split; discriminate|]); contradiction K. }
  split; [intros s [<-|[<-|[]]]; cbn; lia|]. split; [|split; [reflexivity|vm_compute; reflexivity]].
  intros r v Hr Hv.
  change (add_column (table_values read0 rows0) (map recorded (runs run0 paths0))) with
    [(str "a", [dofZ 7; dofZ 9; dofZ 7]); (str "b.lp", [dofZ 12; PosInf; PosInf]); (str "c", [PosInf; dofZ 5; PosInf])] in Hr.
  destruct Hr as [<-|[<-|[<-|[]]]]; cbn [snd] in Hv; repeat (destruct Hv as [<-|Hv]; [split; [part|vm_compute; reflexivity]|]); contradiction Hv.
Qed.
(** With a single solver named by one character, the table written is not readable any more. *)
Theorem C85_refuted : exists solvers rows name written,
  good_table solvers rows /\ is_solver_name name /\
  be_files (benchmark read0 show0 show0 sort0 run0 (one_file (str "t.csv") (csv_file solvers rows)) (fun _ => true) (str "t.csv") name) <> [] /\
  be_result (benchmark read0 show0 show0 sort0 run0 (one_file (str "t.csv") (csv_file solvers rows)) (fun _ => true) (str "t.csv") name) = Bench_true /\
  In (str "t.csv", written) (be_files (benchmark read0 show0 show0 sort0 run0 (one_file (str "t.csv") (csv_file solvers rows)) (fun _ => true) (str "t.csv") name)) /\
  load read0 written = Some (inr solver_name_error).
Proof.
  exists [str "s"], [(str "m", [str "4"])], (str "new"), (str "file,s,new" ++ [nl] ++ str "m,4,7" ++ [nl]). split; [|split; [|split; [|split; [|split]]]].
  - split; [|split].
    + intros s [<-|[]]; (split; [|some_char]); intros c K; cbn in K; repeat (destruct K as [<-|K]; [split; discriminate|]); contradiction K.
    + intros s [].
    + intros r [<-|[]]; cbn [fst snd]; (split; [split; [part|some_char]|]); (split; [|reflexivity]); repeat (constructor; [part|]); constructor.
  - split; [|some_char]. intros c K; cbn in K; repeat (destruct K as [<-|K]; [split; discriminate|]); contradiction K.
  - intros E. apply (f_equal (@List.length _)) in E. vm_compute in E. discriminate E.
  - vm_compute. reflexivity.
  - vm_compute. left. reflexivity.
  - vm_compute. reflexivity.
Qed.

(** ** C86: the ranks of the solvers *)
Theorem C86_solvers_are_ranked_partial (to_double : text -> option dbl) (show10 show_double : dbl -> text)
  (std_sort : forall A : Type, (A -> A -> bool) -> list A -> list A) (run : nat -> text -> run_end)
  (fs : text -> option text) (writable : text -> bool) (base name : text)
  (solvers : list text) (rows : list (text * list text)) (paths : list text) :
  let file := base ++ str ".csv" in
  let column := runs run paths in
  let table := add_column (table_values to_double rows) (map recorded column) in
  sorts_lists std_sort ->
  fs file = Some (csv_file solvers rows) -> good_table solvers rows -> Forall plain_name (map fst rows) ->
  Forall2 (model_path base) (map fst rows) paths -> Forall run_ok column -> (forall f, writable f = true) ->
  solvers <> [] -> 0 < List.length rows < 512 -> (forall r, In r table -> comparable (snd r)) ->
  exists ranks final,
    In (stats_file_name file,
        csv_line (str "file") (solvers ++ [name]) ++
        List.concat (map (fun nr => csv_line (fst nr) (rank_parts (snd nr))) (combine (map fst rows) ranks)) ++
        csv_line (str "mean") (map (fun p => show_double (rank_mean ranks p)) (seq 0 (S (List.length solvers)))) ++
        csv_line (str "rank") (rank_parts final))
       (be_files (benchmark to_double show10 show_double std_sort run fs writable file name)) /\
    List.length ranks = List.length rows /\
    (forall i r k rk, nth_error table i = Some r -> nth_error column i = Some k -> nth_error ranks i = Some rk ->
       dense_ranks (better (kind k)) (snd r) rk) /\
    dense_ranks (fun v w => dlt v w = true) (map (rank_mean ranks) (seq 0 (S (List.length solvers)))) final.
Proof.
  intros file column table Hsort Hfs Hg Hp Hpa Hr Hw Hs Hn Hc.
  exact (stats_file to_double show10 show_double std_sort run fs writable base name solvers rows paths Hfs Hg Hp Hpa Hr (Hw _) (Hw _) Hsort Hs Hn Hc).
Qed.
Lemma comparable0 : forall r, In r (add_column (table_values read0 rows0) (map recorded (runs run0 paths0))) -> comparable (snd r).
Proof.
  intros r Hr. change (add_column (table_values read0 rows0) (map recorded (runs run0 paths0))) with
    [(str "a", [dofZ 7; dofZ 9; dofZ 7]); (str "b.lp", [dofZ 12; PosInf; PosInf]); (str "c", [PosInf; dofZ 5; PosInf])] in Hr.
  destruct Hr as [<-|[<-|[<-|[]]]]; (split; [chars|intros [_ K]; revert K; chars]).
Qed.
Example C86_ex : sorts_lists sort0 /\ solvers0 <> [] /\ 0 < List.length rows0 < 512 /\
  (forall r, In r (add_column (table_values read0 rows0) (map recorded (runs run0 paths0))) -> comparable (snd r)).
Proof. split; [exact isort_sorts|]. split; [discriminate|]. split; [cbn; lia|exact comparable0]. Qed.
(** Two missing solutions written inf and -inf have different ranks. *)
Theorem C86_refuted : exists solvers rows name stats,
  good_table solvers rows /\ comparable [PosInf; PosInf] /\
  In (str "t-stats.csv", stats) (be_files (benchmark read0 show0 show0 sort0 (fun _ _ => Run_failure maximize)
        (one_file (str "t.csv") (csv_file solvers rows)) (fun _ => true) (str "t.csv") name)) /\
  stats = csv_line (str "file") (solvers ++ [name]) ++ csv_line (str "m") (rank_parts [2; 1]) ++
          csv_line (str "mean") [str "2"; str "1"] ++ csv_line (str "rank") (rank_parts [2; 1]) /\
  ~ dense_ranks (better maximize) [NegInf; PosInf] [2; 1].
Proof.
  exists [str "cplex"], [(str "m", [str "-inf"])], (str "new"), (str "file,cplex,new" ++ [nl] ++ str "m,2,1" ++ [nl] ++ str "mean,2,1" ++ [nl] ++ str "rank,2,1" ++ [nl]).
  split; [|split; [|split; [|split]]].
  - split; [|split].
    + intros s [<-|[]]; (split; [|some_char]); intros c K; cbn in K; repeat (destruct K as [<-|K]; [split; discriminate|]); contradiction K.
    + intros s [].
    + intros r [<-|[]]; cbn [fst snd]; (split; [split; [part|some_char]|]); (split; [|reflexivity]); repeat (constructor; [part|]); constructor.
  - split; [chars|intros [_ K]; revert K; chars].
  - vm_compute. right. left. reflexivity.
  - reflexivity.
  - intros (_ & H & _). destruct (H 1 0 PosInf NegInf 1 2 eq_refl eq_refl eq_refl eq_refl) as [K _]. specialize (K ltac:(lia)).
    destruct K as [[K _] _]. apply K. reflexivity.
Qed.

(** ** C87: the benchmark ends *)
Theorem C87_benchmark_ends_partial (to_double : text -> option dbl) (show10 show_double : dbl -> text)
  (std_sort : forall A : Type, (A -> A -> bool) -> list A -> list A) (run : nat -> text -> run_end)
  (fs : text -> option text) (writable : text -> bool) (base name : text)
  (solvers : list text) (rows : list (text * list text)) (paths : list text) :
  let file := base ++ str ".csv" in
  let column := runs run paths in
  let table := add_column (table_values to_double rows) (map recorded column) in
  sorts_lists std_sort ->
  fs file = Some (csv_file solvers rows) -> good_table solvers rows -> Forall plain_name (map fst rows) ->
  Forall2 (model_path base) (map fst rows) paths -> Forall run_ok column -> (forall f, writable f = true) ->
  solvers <> [] -> 0 < List.length rows < 512 -> (forall r, In r table -> comparable (snd r)) ->
  (forall r q, In r table -> In (Fin q) (snd r) -> ~ (q == 0)%Q) ->
  be_result (benchmark to_double show10 show_double std_sort run fs writable file name) = Bench_true.
Proof.
  intros file column table Hsort Hfs Hg Hp Hpa Hr Hw Hs Hn Hc Hz.
  exact (succeeds_true to_double show10 show_double std_sort run fs writable base name solvers rows paths Hfs Hg Hp Hpa Hr (Hw _) (Hw _) Hsort Hs Hn Hc Hz).
Qed.
Example C87_ex :
  (forall r q, In r (add_column (table_values read0 rows0) (map recorded (runs run0 paths0))) -> In (Fin q) (snd r) -> ~ (q == 0)%Q) /\
  be_result (benchmark read0 show0 show0 sort0 run0 (one_file (str "dir/t.csv") (csv_file solvers0 rows0)) (fun _ => true) (str "dir/t.csv") (str "new")) = Bench_true.
Proof.
  split; [|vm_compute; reflexivity]. intros r q Hr Hq. change (add_column (table_values read0 rows0) (map recorded (runs run0 paths0))) with
    [(str "a", [dofZ 7; dofZ 9; dofZ 7]); (str "b.lp", [dofZ 12; PosInf; PosInf]); (str "c", [PosInf; dofZ 5; PosInf])] in Hr.
  destruct Hr as [<-|[<-|[<-|[]]]]; cbn [snd] in Hq; repeat (destruct Hq as [E|Hq]; [try discriminate E; injection E as <-; intros K; discriminate K|]); contradiction Hq.
Qed.
Definition result_on (solvers : list text) (rows : list (text * list text)) : bench_result :=
  be_result (benchmark read0 show0 show0 sort0 run0 (one_file (str "t.csv") (csv_file solvers rows)) (fun _ => true) (str "t.csv") (str "new")).
(** Undefined behaviours: a table without a solver, a table without a model, a value that is zero, a value
    that is not a number, and 512 models. *)
Theorem C87_refuted :
  result_on [] [(str "m", [])] = Bench_crash /\
  result_on [str "cplex"] [] = Bench_crash /\
  result_on [str "cplex"] [(str "m", [str "0"])] = Bench_crash /\
  result_on [str "cplex"; str "itm"] [(str "m", [str "nan"; str "1"])] = Bench_crash /\
  result_on [str "cplex"] (repeat (str "m", [str "1"]) 512) = Bench_crash /\
  result_on [str "cplex"] (repeat (str "m", [str "1"]) 511) = Bench_true.
Proof. do 5 (split; [vm_compute; reflexivity|]). vm_compute. reflexivity. Qed.

(** ** C88: the number of solutions announced *)
Theorem C88_found_partial (to_double : text -> option dbl) (show10 show_double : dbl -> text)
  (std_sort : forall A : Type, (A -> A -> bool) -> list A -> list A) (run : nat -> text -> run_end)
  (fs : text -> option text) (writable : text -> bool) (base name : text)
  (solvers : list text) (rows : list (text * list text)) (paths : list text) :
  let file := base ++ str ".csv" in
  fs file = Some (csv_file solvers rows) -> good_table solvers rows -> Forall plain_name (map fst rows) ->
  Forall2 (model_path base) (map fst rows) paths -> Forall run_ok (runs run paths) ->
  be_found (benchmark to_double show10 show_double std_sort run fs writable file name) =
    Some (List.length (filter no_exception (runs run paths)), List.length rows).
Proof.
  intros file Hfs Hg Hp Hpa Hr.
  exact (announced to_double show10 show_double std_sort run fs writable base name solvers rows paths Hfs Hg Hp Hpa Hr).
Qed.
Example C88_ex : one_file (str "dir/t.csv") (csv_file solvers0 rows0) (str "dir/t.csv") = Some (csv_file solvers0 rows0) /\
  map no_exception (runs run0 paths0) = [true; true; false] /\ map succeeds (runs run0 paths0) = [true; false; false].
Proof. repeat split. Qed.
(** A model for which the optimizer finds no solution is announced as solved. *)
Theorem C88_refuted : exists n,
  be_found (benchmark read0 show0 show0 sort0 run0 (one_file (str "dir/t.csv") (csv_file solvers0 rows0)) (fun _ => true) (str "dir/t.csv") (str "new")) =
    Some (n, List.length rows0) /\ n <> List.length (filter succeeds (runs run0 paths0)).
Proof. exists 2. split; [vm_compute; reflexivity|discriminate]. Qed.

(** ** C89: the file of a model *)
Theorem C89_model_files_partial (base nm : text) : plain_name nm -> model_path base nm (model_dir (base ++ str ".csv") ++ model_file nm).
Proof. exact (model_path_spec base nm). Qed.
Example C89_ex : Forall plain_name (map fst rows0) /\ model_dir (str "dir/t" ++ str ".csv") ++ model_file (str "b.lp") = str "dir/t/b.lp".
Proof. split; [exact plain0|reflexivity]. Qed.
(** The name m.lpz is taken as a name with the extension lp. *)
Theorem C89_refuted : exists base nm, ~ model_path base nm (model_dir (base ++ str ".csv") ++ model_file nm).
Proof.
  exists (str "t"), (str "m.lpz"). intros [(stem & E & _)|[_ E]].
  - destruct stem as [|x [|y [|z stem]]]; try discriminate E. apply (f_equal (@List.length _)) in E. rewrite app_length in E. cbn in E. lia.
  - discriminate E.
Qed.

(** ** C124: a table that cannot be read is reported with the line of the fault *)
(** The fault is on the line after the header and the complete rows: a name with no visible character, or
    a last row with too few values. *)
Theorem C124_line_of_the_fault_partial (to_double : text -> option dbl) (solvers : list text) (rows : list (text * list text)) :
  good_table solvers rows ->
  (forall nm rest, is_part nm -> (forall c, In c nm -> blank c) ->
    load to_double (csv_file solvers rows ++ nm ++ ","%char :: rest) = Some (inr (model_name_error (1 + Z.of_nat (List.length rows) + 1)))) /\
  (forall nm cells, is_model_name nm -> Forall is_part cells -> List.length cells < List.length solvers ->
    load to_double (csv_file solvers rows ++ csv_line nm cells) = Some (inr (read_data_error (1 + Z.of_nat (List.length rows) + 1)))).
Proof.
  intros (H1 & H2 & H3). replace (1 + Z.of_nat (List.length rows) + 1)%Z with (2 + Z.of_nat (List.length rows))%Z by lia. split.
  - intros nm rest Hp Hb. exact (load_bad_name to_double solvers rows nm rest H1 H2 H3 Hp Hb).
  - intros nm cells Hn Hc Hl. exact (load_short_row to_double solvers rows nm cells H1 H2 H3 Hn Hc Hl).
Qed.
Example C124_ex : good_table solvers0 rows0 /\ is_model_name (str "d") /\ Forall is_part [str "4"] /\
  List.length [str "4"] < List.length solvers0 /\
  load read0 (csv_file solvers0 rows0 ++ csv_line (str "d") [str "4"]) = Some (inr (read_data_error 5)) /\
  load read0 (csv_file solvers0 rows0 ++ str "  ,4,5") = Some (inr (model_name_error 5)).
Proof.
  split; [exact good0|]. split; [split; [part|some_char]|]. split; [constructor; [part|constructor]|]. split; [cbn; lia|].
  split; vm_compute; reflexivity.
Qed.
(** A row with too few values that is not the last one takes the words of the next rows as its values: the
    table below, whose rows have no value at all, loads as one row. *)
Theorem C124_refuted : exists solvers nm1 nm2 b,
  (forall s, In s solvers -> is_solver_name s) /\ is_model_name nm1 /\ is_model_name nm2 /\ solvers <> [] /\
  load read0 (csv_file solvers [(nm1, []); (nm2, [])]) = Some (inl b) /\ bn_solvers b = solvers /\ contains b solvers [(nm1, [PosInf])].
Proof.
  exists [str "itm"], (str "a"), (str "b").
  destruct (load read0 (csv_file [str "itm"] [(str "a", []); (str "b", [])])) as [[b|e]|] eqn:E.
  2,3: vm_compute in E; discriminate E.
  assert (Hb : load read0 (csv_file [str "itm"] [(str "a", [str "x"])]) = Some (inl b)) by (vm_compute in E; vm_compute; exact E).
  destruct (C84_table_is_loaded_partial read0 [str "itm"] [(str "a", [str "x"])]) as (b' & Hb' & Hc).
  - split; [|split].
    + intros s [<-|[]]. apply solvers0_names. right. left. reflexivity.
    + intros s [].
    + intros r [<-|[]]. cbn [fst snd]. split; [split; [part|some_char]|]. split; [|reflexivity]. constructor; [part|constructor].
  - assert (b' = b) by congruence. subst b'. exists b.
    split; [intros s [<-|[]]; apply solvers0_names; right; left; reflexivity|].
    split; [split; [part|some_char]|]. split; [split; [part|some_char]|]. split; [discriminate|]. split; [reflexivity|].
    split; [|exact Hc]. vm_compute in Hb. injection Hb as <-. reflexivity.
Qed.

Print Assumptions C84_table_is_loaded_partial.
Print Assumptions C84_any_text.
Print Assumptions C84_refuted.
Print Assumptions C85_column_is_added_partial.
Print Assumptions C85_refuted.
Print Assumptions C86_solvers_are_ranked_partial.
Print Assumptions C86_refuted.
Print Assumptions C87_benchmark_ends_partial.
Print Assumptions C87_refuted.
Print Assumptions C88_found_partial.
Print Assumptions C88_refuted.
Print Assumptions C89_model_files_partial.
Print Assumptions C89_refuted.
Print Assumptions C124_line_of_the_fault_partial.
Print Assumptions C124_refuted.
