(** The result of the whole benchmark, and a sort for the examples. *)
From Coq Require Import QArith Ascii String Permutation Sorted Lqa.
From Verif Require Import Base Problem_model Params_model Utils_model Writer_model ResultIO_model
  Dynarray_model Dynarray_spec Dynarray_proofs Bench_model Bench_spec Bench_proofs Bench_proofs2 Bench_proofs3 Bench_proofs4.
Open Scope string_scope.
Open Scope list_scope.
Open Scope nat_scope.

Section Whole.
Variable to_double : text -> option dbl.
Variables (show10 show_double : dbl -> text).
Variable std_sort : forall A : Type, (A -> A -> bool) -> list A -> list A.
Variable run : nat -> text -> run_end.
Variables (fs : text -> option text) (writable : text -> bool) (base name : text).
Variables (solvers : list text) (rows : list (text * list text)) (paths : list text).
Let file := base ++ str ".csv".
Hypothesis Hfs : fs file = Some (csv_file solvers rows).
Hypothesis Hgood : good_table solvers rows.
Hypothesis Hplain : Forall plain_name (map fst rows).
Hypothesis Hpaths : Forall2 (model_path base) (map fst rows) paths.
Hypothesis Hruns : Forall run_ok (runs run paths).
Let out := benchmark to_double show10 show_double std_sort run fs writable file name.
Let values := table_values to_double rows.
Let column := runs run paths.
Let table := add_column values (map recorded column).

Lemma values_eq : values = map (fun r => (fst r, map (cell_of to_double) (snd r))) rows.
Proof. reflexivity. Qed.
Lemma names_eq : map fst values = map fst rows.
Proof. unfold values, table_values. rewrite map_map. reflexivity. Qed.
Lemma paths_eq : paths = map (fun nm => model_dir file ++ model_file nm) (map fst rows).
Proof.
  revert Hplain Hpaths. generalize (map fst rows). intros l Hl H. clear -Hl H. induction H as [|nm p l ps Hp H IH]; [reflexivity|].
  inversion Hl as [|? ? H1 H2]; subst. cbn [map]. f_equal; [|apply IH, H2]. eapply model_path_det; [exact Hp|]. apply model_path_spec, H1.
Qed.
Lemma paths_length : List.length paths = List.length rows.
Proof. rewrite paths_eq, !map_length. reflexivity. Qed.
Lemma column_length : List.length column = List.length values.
Proof. unfold column, runs, values, table_values. rewrite !map_length, combine_length, seq_length, paths_length. apply Nat.min_id. Qed.

Lemma out_eq : exists b, ready solvers values b /\
  let b' := mk_bench (combine (map fst values) (map kind column)) (bn_solvers b) (bn_array b) in
  let c := map element_for column in
  out =
    let announced := Some (found c, List.length c) in
    if writable file then
      match save_text show10 b' name c with
      | None => mk_bench_end [] announced Bench_crash
      | Some t1 =>
        if writable (stats_file_name file) then
          match stats_text show_double std_sort b' name c with
          | None => mk_bench_end [(file, t1)] announced Bench_crash
          | Some t2 =>
            mk_bench_end [(file, t1); (stats_file_name file, t2)] announced
              (if console_ok b' c then Bench_true else Bench_crash)
          end
        else mk_bench_end [(file, t1)] announced Bench_stats_error
      end
    else mk_bench_end [] announced Bench_result_error.
Proof.
  destruct Hgood as (H1 & H2 & H3). destruct (load_ready to_double solvers rows H1 H2 H3) as (b & El & Hr). exists b. split; [exact Hr|].
  intros b' c. unfold out, benchmark. rewrite Hfs, El, (r_models _ _ _ Hr).
  change (map (fun r => (fst r, map (cell_of to_double) (snd r))) rows) with values. rewrite names_eq.
  pose proof (run_models_spec run (model_dir file) (map fst rows) 0) as K. cbv zeta in K.
  assert (E : map (fun ip => run (fst ip) (snd ip)) (combine (seq 0 (List.length (map fst rows))) (map (fun nm => model_dir file ++ model_file nm) (map fst rows))) = column).
  { unfold column, runs. rewrite paths_eq. rewrite (map_length _ (map fst rows)). reflexivity. }
  rewrite E in K. rewrite K.
  - rewrite <- names_eq. reflexivity.
  - intros i nm Hi. cbn [Nat.add]. assert (Hin : In (run i (model_dir file ++ model_file nm)) column).
    { unfold column, runs. apply in_map_iff. exists (i, model_dir file ++ model_file nm). split; [reflexivity|]. rewrite paths_eq.
      apply (nth_error_In _ i). rewrite map_length. clear -Hi. set (f := fun nm => model_dir file ++ model_file nm). change (model_dir file ++ model_file nm) with (f nm).
      assert (G : forall (l : list text) k i, nth_error l i = Some nm -> nth_error (combine (seq k (List.length l)) (map f l)) i = Some (k + i, f nm)).
      { induction l as [|a l IH]; intros k [|j] Hj; try discriminate Hj; cbn in Hj |- *.
        - injection Hj as ->. rewrite Nat.add_0_r. reflexivity.
        - rewrite IH by exact Hj. do 2 f_equal. lia. }
      apply (G _ 0). exact Hi. }
    unfold column in Hin. exact (proj1 (Forall_forall _ _) Hruns _ Hin).
Qed.

Lemma result_file : writable file = true ->
  In (file, csv_file (solvers ++ [name]) (table_parts show10 table)) (be_files out).
Proof.
  intros Hw. destruct out_eq as (b & Hr & E). cbv zeta in E. rewrite E, Hw.
  rewrite (save' show10 solvers values b Hr column column_length name). fold table. change (shown show10 table) with (table_parts show10 table).
  destruct (writable (stats_file_name file)); [|left; reflexivity]. destruct (stats_text _ _ _ _ _); left; reflexivity.
Qed.
Lemma good_reload : is_solver_name name -> (forall s, In s solvers -> List.length s <> 1) ->
  (forall r v, In r table -> In v (snd r) -> is_part (show10 v) /\ to_double (trim (show10 v)) = Some v) ->
  good_table (solvers ++ [name]) (table_parts show10 table) /\ table_values to_double (table_parts show10 table) = table.
Proof.
  intros Hn H1 Hv. destruct Hgood as (G1 & G2 & G3). split; [split; [|split]|].
  - intros s Hs. apply in_app_or in Hs. destruct Hs as [Hs|[<-|[]]]; auto.
  - intros s Hs. rewrite removelast_last in Hs. apply H1, Hs.
  - intros r Hr. unfold table_parts in Hr. apply in_map_iff in Hr. destruct Hr as (r1 & <- & Hr1). cbn [fst snd].
    split; [|split].
    + apply In_nth_error in Hr1. destruct Hr1 as [i Hi]. destruct (nth_add_column _ _ _ _ Hi) as (r0 & v & E0 & _ & ->). cbn [fst].
      unfold values, table_values in E0. rewrite nth_error_map in E0. destruct (nth_error rows i) as [r2|] eqn:E2; [|discriminate E0]. injection E0 as <-. cbn [fst].
      apply G3. eapply nth_error_In, E2.
    + apply Forall_forall. intros w Hw. apply in_map_iff in Hw. destruct Hw as (v & <- & Hin). exact (proj1 (Hv r1 v Hr1 Hin)).
    + rewrite map_length. apply In_nth_error in Hr1. destruct Hr1 as [i Hi]. destruct (nth_add_column _ _ _ _ Hi) as (r0 & v & E0 & _ & ->). cbn [snd].
      unfold values, table_values in E0. rewrite nth_error_map in E0. destruct (nth_error rows i) as [r2|] eqn:E2; [|discriminate E0]. injection E0 as <-. cbn [snd].
      rewrite !app_length, map_length. cbn [List.length]. f_equal. destruct (G3 r2 (nth_error_In _ _ E2)) as (_ & _ & ->). reflexivity.
  - unfold table_values, table_parts. rewrite map_map. cbn [fst snd]. rewrite <- map_id. apply map_ext_in. intros [nm vs] Hr. cbn [fst snd]. f_equal.
    rewrite map_map, <- map_id. apply map_ext_in. intros v Hin. unfold number_in. rewrite (proj2 (Hv _ _ Hr Hin)). reflexivity.
Qed.
Lemma stats_file : writable file = true -> writable (stats_file_name file) = true ->
  sorts_lists std_sort -> solvers <> [] -> 0 < List.length rows < 512 -> (forall r, In r table -> comparable (snd r)) ->
  exists ranks final,
  In (stats_file_name file,
      csv_line (str "file") (solvers ++ [name]) ++
      List.concat (map (fun nr => csv_line (fst nr) (rank_parts (snd nr))) (combine (map fst rows) ranks)) ++
      csv_line (str "mean") (map (fun p => show_double (rank_mean ranks p)) (seq 0 (S (List.length solvers)))) ++
      csv_line (str "rank") (rank_parts final)) (be_files out) /\
  List.length ranks = List.length rows /\
  (forall i r k rk, nth_error table i = Some r -> nth_error column i = Some k -> nth_error ranks i = Some rk ->
     dense_ranks (better (kind k)) (snd r) rk) /\
  dense_ranks (fun v w => dlt v w = true) (map (rank_mean ranks) (seq 0 (S (List.length solvers)))) final.
Proof.
  intros Hw Hw2 Hsort Hs Hn Hcmp. destruct out_eq as (b & Hr & E). cbv zeta in E.
  assert (Hl : List.length values = List.length rows) by (unfold values, table_values; apply map_length).
  assert (Hn' : 0 < List.length values < 512) by lia.
  destruct (stats' show_double std_sort solvers values b Hr column column_length name Hsort Hs Hn' Hcmp) as (ranks & final & E2 & Lr & Hd & Hf).
  exists ranks, final. rewrite E, Hw, Hw2.
  rewrite (save' show10 solvers values b Hr column column_length name), E2. cbn [be_files].
  split; [|split; [lia|split; [exact Hd|]]].
  - right. left. rewrite names_eq. unfold rank_mean, rank_parts. rewrite Lr. reflexivity.
  - unfold rank_mean. rewrite Lr. exact Hf.
Qed.
Lemma succeeds_true : writable file = true -> writable (stats_file_name file) = true ->
  sorts_lists std_sort -> solvers <> [] -> 0 < List.length rows < 512 -> (forall r, In r table -> comparable (snd r)) ->
  (forall r q, In r table -> In (Fin q) (snd r) -> ~ (q == 0)%Q) ->
  be_result out = Bench_true.
Proof.
  intros Hw Hw2 Hsort Hs Hn Hcmp Hz. destruct out_eq as (b & Hr & E). cbv zeta in E.
  assert (Hl : List.length values = List.length rows) by (unfold values, table_values; apply map_length).
  assert (Hn' : 0 < List.length values < 512) by lia.
  destruct (stats' show_double std_sort solvers values b Hr column column_length name Hsort Hs Hn' Hcmp) as (ranks & final & E2 & Lr & Hd & Hf).
  rewrite E, Hw, Hw2. rewrite (save' show10 solvers values b Hr column column_length name), E2. cbn [be_result].
  rewrite (console' solvers values b Hr column column_length Hn'); [reflexivity|].
  intros r v Hin Hv. split; [intros ->; exact (proj1 (Hcmp r Hin) Hv)|]. intros q ->. exact (Hz r q Hin Hv).
Qed.
Lemma announced : be_found out = Some (List.length (filter no_exception column), List.length rows).
Proof.
  destruct out_eq as (b & Hr & E). cbv zeta in E. rewrite E. rewrite found', map_length, column_length.
  unfold values, table_values. rewrite map_length.
  destruct (writable file); [|reflexivity]. destruct (save_text _ _ _ _); [|reflexivity].
  destruct (writable (stats_file_name file)); [|reflexivity]. destruct (stats_text _ _ _ _ _); reflexivity.
Qed.
End Whole.

(** ** A sort *)
Section Sort.
Context {A : Type} (lt : A -> A -> bool).
Fixpoint insert (x : A) (l : list A) : list A :=
  match l with [] => [x] | y :: l' => if lt x y then x :: l else y :: insert x l' end.
Definition isort (l : list A) : list A := fold_right insert [] l.
Lemma insert_perm x l : Permutation (insert x l) (x :: l).
Proof. induction l as [|y l IH]; cbn; [reflexivity|]. destruct (lt x y); [reflexivity|]. rewrite IH. apply perm_swap. Qed.
Lemma isort_perm l : Permutation (isort l) l.
Proof. induction l as [|x l IH]; cbn; [reflexivity|]. rewrite insert_perm, IH. reflexivity. Qed.
End Sort.
Lemma isort_sorts : sorts_lists (fun A lt l => isort lt l).
Proof.
  intros A lt l Hirr Htr Hneg. split; [apply isort_perm|].
  assert (G : forall l', incl l' l -> StronglySorted (fun a b => lt b a = false) (isort lt l')).
  { induction l' as [|x l' IH]; intros Hi; cbn [isort fold_right]; [constructor|].
    assert (Hx : In x l) by (apply Hi; left; reflexivity).
    assert (Hl' : incl l' l) by (intros y Hy; apply Hi; right; exact Hy). specialize (IH Hl'). fold (isort lt l').
    assert (Hs : incl (isort lt l') l) by (intros y Hy; apply Hl'; eapply Permutation_in; [apply isort_perm|exact Hy]).
    clear Hi Hl'. revert IH Hs. generalize (isort lt l'). clear l'. induction l0 as [|y m IHm]; intros Hso Hs; cbn [insert].
    - repeat constructor.
    - apply StronglySorted_inv in Hso. destruct Hso as [Hm Hy]. assert (Hyl : In y l) by (apply Hs; left; reflexivity).
      destruct (lt x y) eqn:E.
      + assert (Hyx : lt y x = false).
        { destruct (lt y x) eqn:K; [|reflexivity]. exfalso. pose proof (Htr x y x Hx Hyl Hx E K) as F. rewrite (Hirr x Hx) in F. discriminate F. }
        constructor; [constructor; assumption|]. constructor; [exact Hyx|]. apply Forall_forall. intros w Hw. rewrite Forall_forall in Hy.
        eapply Hneg; [|exact Hyl|exact Hx|apply Hy, Hw|exact Hyx]. apply Hs. right. exact Hw.
      + constructor; [apply IHm; [exact Hm|intros w Hw; apply Hs; right; exact Hw]|]. apply Forall_forall. intros w Hw.
        apply (Permutation_in _ (insert_perm lt x m)) in Hw. destruct Hw as [<-|Hw]; [exact E|]. rewrite Forall_forall in Hy. apply Hy, Hw. }
  apply G. apply incl_refl.
Qed.
