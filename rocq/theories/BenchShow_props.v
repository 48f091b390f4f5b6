(** C132, C133: the distances and the colours that the benchmark prints. *)
From Coq Require Import QArith Lqa Lia String.
From Verif Require Import Base Problem_model Params_model Dynarray_model Bench_model BenchShow_model BenchShow_spec BenchShow_proofs.
Open Scope Q_scope.
Open Scope list_scope.

(** C132. The average distance from the solution of a solver is the mean of the relative distances, for numbers with references other than 0, when
    the solver and the new one have solved every model. Missing: a model that one of them has not solved (C132_refuted). *)
Theorem C132_average_distance_partial :
  forall (column : list dbl) (c : list element), List.length column = List.length c -> c <> [] ->
  let pairs := combine column (map el_solution c) in
  plain_values pairs -> List.length (numbers pairs) = List.length c ->
  exists p, solver_distance column c = Some (Fin p) /\ p == mean (map relative (numbers pairs)).
Proof.
  intros column c Hl Hc pairs Hp Hn. assert (H0 : (0 < List.length c)%nat) by (destruct c; [contradiction|cbn; lia]).
  pose proof (average_of (solver_distance column c) pairs (List.length c) Hp H0 eq_refl) as H. destruct (solver_distance column c) as [d|].
  - destruct H as (_ & p & -> & E). exists p. split; [reflexivity|]. rewrite E, Hn. field. intros K. unfold Qeq in K. cbn in K. lia.
  - rewrite H in Hn. cbn in Hn. lia.
Qed.
Print Assumptions C132_average_distance_partial.
(** In general the mean over the models that both have solved is multiplied by their part of all the models; nothing is printed when there are
    none. *)
Theorem C132_average_is_diluted :
  forall (column : list dbl) (c : list element), List.length column = List.length c -> c <> [] ->
  let pairs := combine column (map el_solution c) in
  plain_values pairs ->
  match solver_distance column c with
  | None => numbers pairs = []
  | Some d => numbers pairs <> [] /\ exists p, d = Fin p /\
      p == mean (map relative (numbers pairs)) * (inject_Z (Z.of_nat (List.length (numbers pairs))) / inject_Z (Z.of_nat (List.length c)))
  end.
Proof.
  intros column c Hl Hc pairs Hp. assert (H0 : (0 < List.length c)%nat) by (destruct c; [contradiction|cbn; lia]).
  pose proof (average_of (solver_distance column c) pairs (List.length c) Hp H0 eq_refl) as H. destruct (solver_distance column c) as [d|]; [|exact H].
  destruct H as (N & p & -> & E). split; [exact N|]. exists p. split; [reflexivity|]. rewrite E. field. intros K. unfold Qeq in K. cbn in K. lia.
Qed.
Print Assumptions C132_average_is_diluted.
(** A reference 0 takes the average away: not a number when a value for such a reference is 0 as well, or when two of them have opposite signs;
    otherwise an infinity, positive for a value below the reference. *)
Theorem C132_zero_reference :
  forall (column : list dbl) (c : list element), no_nan (combine column (map el_solution c)) ->
  let l := numbers (combine column (map el_solution c)) in
  let undefined := zero_with (fun b => b == 0) l in let below := zero_with (fun b => b < 0) l in let above := zero_with (fun b => 0 < b) l in
  (undefined \/ (below /\ above) -> solver_distance column c = Some NaN) /\
  (~ undefined -> below -> ~ above -> solver_distance column c = Some PosInf) /\
  (~ undefined -> above -> ~ below -> solver_distance column c = Some NegInf).
Proof. exact zero_references. Qed.
Print Assumptions C132_zero_reference.
Example C132_zero_reference_ex :
  solver_distance [Fin 0; Fin 10] [element_of (Fin (-3)); element_of (Fin 9)] = Some PosInf /\
  solver_distance [Fin 0; Fin 10] [element_of (Fin 3); element_of (Fin 9)] = Some NegInf /\
  solver_distance [Fin 0; Fin 10] [element_of (Fin 0); element_of (Fin 9)] = Some NaN.
Proof. vm_compute. auto. Qed.
(** Two models; the solver has solved the first one only, and the new one is 10 percent away from it there: 5 percent is printed. *)
Theorem C132_refuted : exists column c,
  let pairs := combine column (map el_solution c) in
  List.length column = List.length c /\ plain_values pairs /\ mean (map relative (numbers pairs)) == 10 /\
  exists p, solver_distance column c = Some (Fin p) /\ p == 5.
Proof.
  exists [Fin 100; PosInf], [element_of (Fin 90); element_of (Fin 7)]. cbv zeta. split; [reflexivity|]. split; [|split; [reflexivity|eexists; split; [vm_compute; reflexivity|reflexivity]]].
  intros p [<-|[<-|[]]]; (split; [discriminate|split; [discriminate|]]); intros a E; [|discriminate]. injection E as <-. discriminate.
Qed.
Print Assumptions C132_refuted.
(** The average distance from the optimum: the mean of the distances of the other models from the first one. *)
Theorem C132_optimum_is_the_first_model :
  forall (e0 : element) (c : list element),
  let pairs := map (fun e => (el_solution e0, el_solution e)) c in
  plain_values pairs ->
  match optimum_distance (e0 :: c) with
  | None => numbers pairs = []
  | Some d => exists p, d = Fin p /\ p == mean (map relative (numbers pairs))
  end.
Proof.
  intros e0 c pairs Hp. unfold optimum_distance. fold pairs. destruct (distances_spec pairs 0 0 Hp) as (t & E1 & E2). rewrite E1. cbn [plus].
  destruct (numbers pairs) as [|p0 ps] eqn:En; [reflexivity|]. cbn [List.length Nat.ltb Nat.leb]. eexists. split; [reflexivity|].
  rewrite E2. unfold mean. rewrite map_length. cbn [List.length]. field. intros K. unfold Qeq in K. cbn in K. lia.
Qed.
Print Assumptions C132_optimum_is_the_first_model.
(** So that it says nothing of the optimum: here every solution is the optimum, and 50 percent is printed. *)
Theorem C132_optimum_refuted : exists column c,
  (forall i e, nth_error c i = Some e -> nth_error column i = Some (el_solution e)) /\ (exists p, solver_distance column c = Some (Fin p) /\ p == 0) /\
  exists p, optimum_distance c = Some (Fin p) /\ p == 50.
Proof.
  exists [Fin 100; Fin 50], [element_of (Fin 100); element_of (Fin 50)]. split; [|split].
  - intros [|[|i]] e E; cbn in *; try (injection E as <-; reflexivity). destruct i; discriminate.
  - eexists. split; [vm_compute; reflexivity|reflexivity].
  - eexists. split; [vm_compute; reflexivity|reflexivity].
Qed.
Print Assumptions C132_optimum_refuted.
(** 100 and 110, -10 and -8: -10 and 20 percent. *)
Example C132_case : exists column c, plain_values (combine column (map el_solution c)) /\ List.length (numbers (combine column (map el_solution c))) = List.length c /\
  List.length c = 2%nat /\ exists p, solver_distance column c = Some (Fin p) /\ p == 5.
Proof.
  exists [Fin 100; Fin (-10)], [element_of (Fin 110); element_of (Fin (-8))]. split; [|split; [reflexivity|split; [reflexivity|eexists; split; [vm_compute; reflexivity|reflexivity]]]].
  intros p [<-|[<-|[]]]; (split; [discriminate|split; [discriminate|]]); intros a E; injection E as <-; discriminate.
Qed.

(** C133. In the line of a model to minimize, green marks exactly the best values (of the other solvers and of the new one) and blue the worst
    that are not the best; a solver without solution has no colour. Every value of the line is shown, in order. [dbl_max] bounds the doubles.
    Missing: models to maximize, where green marks the worst (C133_refuted). *)
Theorem C133_colours_partial :
  forall (dbl_max : Q) (cells : list dbl) (e : element),
  let all := cells ++ [el_solution e] in
  (forall v, In v all -> v <> NaN) -> (forall a, In (Fin a) all -> - dbl_max <= a <= dbl_max) -> (el_success e = false -> el_solution e = PosInf) ->
  map fst (shown_line dbl_max cells e) = all /\
  forall v k, In (v, k) (shown_line dbl_max cells e) ->
    (k = Green <-> best_of minimize all v) /\ (k = Blue <-> best_of maximize all v /\ ~ best_of minimize all v).
Proof. intros. apply line_colours; assumption. Qed.
Print Assumptions C133_colours_partial.
(** The same for the table that a benchmark shows at its end: one line for each model, with its name, the values of the table and the new one. *)
Theorem C133_table_partial :
  forall run dir (b : bench) ms c (dbl_max : Q) lines,
  run_models run dir (bn_models b) 0 = Some (Some (ms, c)) ->
  shown dbl_max (mk_bench ms (bn_solvers b) (bn_array b)) c = Some lines ->
  map fst lines = map fst ms /\
  forall i nm line, nth_error lines i = Some (nm, line) ->
  exists e cells, nth_error c i = Some e /\ (forall j, (j < List.length (bn_solvers b))%nat -> nth_error cells j = dy_get (bn_array b) i j) /\
    List.length cells = List.length (bn_solvers b) /\
    let all := cells ++ [el_solution e] in
    map fst line = all /\
    ((forall v, In v all -> v <> NaN) -> (forall a, In (Fin a) all -> - dbl_max <= a <= dbl_max) ->
     forall v k, In (v, k) line -> (k = Green <-> best_of minimize all v) /\ (k = Blue <-> best_of maximize all v /\ ~ best_of minimize all v)).
Proof.
  intros run dir b ms c dbl_max lines Hr Hs. destruct (shown_lines_spec _ _ _ _ _ _ Hs) as [H1 H2]. split; [exact H1|].
  intros i nm line Hi. destruct (H2 i nm line Hi) as (cells & e & A & B & ->). cbn [bn_array bn_solvers plus] in A. exists e, cells. split; [exact B|].
  destruct (line_values_spec _ _ _ _ A) as [L1 L2]. rewrite seq_length in L1. split; [|split; [exact L1|]].
  - intros j Hj. rewrite (L2 j j); [reflexivity|]. rewrite (nth_error_nth' _ 0%nat) by (rewrite seq_length; exact Hj). rewrite seq_nth by exact Hj. reflexivity.
  - pose proof (run_elements run dir _ _ _ _ Hr e (nth_error_In _ _ B)) as He. split; [|intros Hn Hb; apply line_colours; assumption].
    unfold shown_line. rewrite map_map. cbn [fst]. apply map_id.
Qed.
Print Assumptions C133_table_partial.
(** A model to maximize: the solver that has found 1 is shown in green, the new one, with 2, in blue. *)
Theorem C133_refuted : exists (b : bench) (c : list element) line dbl_max,
  bn_models b = [(str "m", maximize)] /\ shown dbl_max b c = Some [(str "m", line)] /\ In (Fin 1, Green) line /\ In (Fin 2, Blue) line /\
  best_of maximize (map fst line) (Fin 2) /\ ~ best_of maximize (map fst line) (Fin 1).
Proof.
  exists (mk_bench [(str "m", maximize)] [str "s"] (mk_dyn [Fin 1] 1 1 1)), [element_of (Fin 2)], [(Fin 1, Green); (Fin 2, Blue)], 1000.
  split; [reflexivity|]. split; [vm_compute; reflexivity|]. split; [left; reflexivity|]. split; [right; left; reflexivity|]. split.
  - exists 2. split; [reflexivity|]. intros b [E|[E|[]]]; injection E as <-; lra.
  - intros (a & E & H). injection E as <-. specialize (H 2 (or_intror (or_introl eq_refl))). lra.
Qed.
Print Assumptions C133_refuted.
Example C133_case : shown 1000 (mk_bench [(str "m", minimize); (str "n", minimize)] [str "s"; str "t"] (mk_dyn [Fin 3; PosInf; Fin 7; Fin 5] 2 2 2))
    [element_of (Fin 2); element0] =
  Some [(str "m", [(Fin 3, Blue); (PosInf, Plain); (Fin 2, Green)]); (str "n", [(Fin 7, Blue); (Fin 5, Green); (PosInf, Plain)])].
Proof. vm_compute. reflexivity. Qed.
