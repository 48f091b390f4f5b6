(** The files written by a benchmark. *)
From Coq Require Import QArith Ascii String Permutation Sorted Lqa.
From Verif Require Import Base Problem_model Params_model Writer_model ResultIO_model
  Dynarray_model Dynarray_spec Dynarray_proofs Bench_model Bench_spec Bench_proofs Bench_proofs2.
Open Scope string_scope.
Open Scope list_scope.
Open Scope nat_scope.

(** ** Orders *)
Definition is_number_or (mark v : dbl) : Prop := v = mark \/ exists q, v = Fin q.
Definition vbefore (ty : objective_type) (a b : dbl) : bool :=
  if is_valid a then if is_valid b then match ty with minimize => dlt a b | maximize => dlt b a end else true else false.
Lemma fin_lt a b : dlt (Fin a) (Fin b) = true <-> (a < b)%Q.
Proof. cbn. rewrite negb_true_iff. destruct (Qle_bool b a) eqn:E; [apply Qle_bool_iff in E|]; split; intros H; try discriminate; try reflexivity; try lra.
  apply Qnot_le_lt. intros K. apply Qle_bool_iff in K. congruence. Qed.
Lemma fin_nlt a b : dlt (Fin a) (Fin b) = false <-> (b <= a)%Q.
Proof. cbn. rewrite negb_false_iff. apply Qle_bool_iff. Qed.
Lemma fin_eq a b : deq (Fin a) (Fin b) = true <-> (a == b)%Q.
Proof. cbn. apply Qeq_bool_iff. Qed.

Lemma dlt_orders : orders dlt (fun v => exists q, v = Fin q).
Proof.
  constructor.
  - intros a [q ->]. apply fin_nlt. apply Qle_refl.
  - intros a b c [p ->] [q ->] [r ->] E1 E2. apply fin_lt in E1, E2. apply fin_lt. lra.
  - intros a b c [p ->] [q ->] [r ->] E1 E2. apply fin_nlt in E1, E2. apply fin_nlt. lra.
  - intros a b [p ->] [q ->]. rewrite fin_eq. split.
    + intros [E1 E2]. apply fin_nlt in E1, E2. lra.
    + intros E. split; apply fin_nlt; lra.
Qed.
Lemma vbefore_orders ty mark : mark = PosInf \/ mark = NegInf -> orders (vbefore ty) (is_number_or mark).
Proof.
  intros Hm.
  assert (V : is_valid mark = false) by (destruct Hm as [-> | ->]; reflexivity).
  assert (D : deq mark mark = true /\ (forall q, deq mark (Fin q) = false /\ deq (Fin q) mark = false)) by (destruct Hm as [-> | ->]; cbn; auto).
  destruct D as [D1 D2].
  constructor.
  - intros a [->|[q ->]]; unfold vbefore; rewrite ?V; [reflexivity|]. cbn [is_valid].
    destruct ty; apply fin_nlt, Qle_refl.
  - intros a b c Ha Hb Hc. destruct Ha as [->|[p ->]], Hb as [->|[q ->]], Hc as [->|[r ->]]; unfold vbefore; rewrite ?V; cbn [is_valid]; auto; try discriminate.
    destruct ty; rewrite !fin_lt; lra.
  - intros a b c Ha Hb Hc. destruct Ha as [->|[p ->]], Hb as [->|[q ->]], Hc as [->|[r ->]]; unfold vbefore; rewrite ?V; cbn [is_valid]; auto; try discriminate.
    destruct ty; rewrite !fin_nlt; lra.
  - intros a b Ha Hb. destruct Ha as [->|[p ->]], Hb as [->|[q ->]]; unfold vbefore; rewrite ?V; cbn [is_valid].
    + rewrite D1. tauto.
    + destruct (D2 q) as [-> _]. split; [intros [_ K]; discriminate K|discriminate].
    + destruct (D2 p) as [_ ->]. split; [intros [K _]; discriminate K|discriminate].
    + rewrite fin_eq. destruct ty; rewrite !fin_nlt; lra.
Qed.
Lemma has_solution_iff v : has_solution v <-> is_valid v = true.
Proof. unfold has_solution. destruct v; cbn; split; intros H; try reflexivity; try discriminate; try (split; discriminate); destruct H; congruence. Qed.
Lemma vbefore_better ty v w : vbefore ty v w = true <-> better ty v w.
Proof.
  unfold vbefore, better. rewrite !has_solution_iff. destruct (is_valid v); [|split; [discriminate|intros [K _]; discriminate K]].
  destruct (is_valid w); [|split; [intros _; split; [reflexivity|discriminate]|reflexivity]].
  destruct ty; split; intros H; auto; apply H; reflexivity.
Qed.
Lemma dense_ranks_ext (R R' : dbl -> dbl -> Prop) vs l : (forall v w, R v w <-> R' v w) -> dense_ranks R vs l -> dense_ranks R' vs l.
Proof. intros H (H1 & H2 & H3). split; [exact H1|]. split; [|exact H3]. intros. rewrite <- H. eapply H2; eassumption. Qed.

(** ** Sums of ranks *)
Fixpoint sum_at (l : list ranked) (p : nat) : nat :=
  match l with [] => 0 | r :: l' => (if Nat.eqb (rk_position r) p then rk_rank r else 0) + sum_at l' p end.
Lemma sum_at_perm l l' p : Permutation l l' -> sum_at l p = sum_at l' p.
Proof. induction 1; cbn; lia. Qed.
Lemma add_ranks_spec l : forall stats, (forall r, In r l -> rk_position r < List.length stats) ->
  exists s, add_ranks l stats = Some s /\ List.length s = List.length stats /\
    forall p, nth_error s p = option_map (fun x => x + sum_at l p) (nth_error stats p).
Proof.
  induction l as [|r l IH]; intros stats H; cbn [add_ranks sum_at].
  - exists stats. split; [reflexivity|]. split; [reflexivity|]. intros p. destruct (nth_error stats p); cbn; [f_equal; lia|reflexivity].
  - assert (Hr : rk_position r < List.length stats) by (apply H; left; reflexivity).
    unfold list_modify. destruct (nth_error stats (rk_position r)) as [x|] eqn:Ex; [|apply nth_error_None in Ex; lia]. cbn [bind].
    destruct (list_upd_some stats (rk_position r) (x + rk_rank r) Hr) as [s1 E1]. rewrite E1. cbn [bind].
    pose proof (list_upd_length _ _ _ _ E1) as L1.
    destruct (IH s1) as (s & E & L & Hs); [intros q Hq; rewrite L1; apply H; right; exact Hq|].
    exists s. split; [exact E|]. split; [lia|]. intros p. rewrite Hs, (list_upd_nth _ _ _ _ _ E1).
    destruct (Nat.eqb_spec (rk_position r) p) as [Ep|Np].
    { rewrite <- Ep, Nat.eqb_refl, Ex. cbn. f_equal. lia. }
    replace (Nat.eqb p (rk_position r)) with false by (symmetry; apply Nat.eqb_neq; lia). destruct (nth_error stats p); cbn; [f_equal; lia|reflexivity].
Qed.
Lemma sum_at_positions l k p : map rk_position l = seq k (List.length l) -> sum_at l (k + p) = match nth_error (map rk_rank l) p with Some r => r | None => 0 end.
Proof.
  revert k p. induction l as [|r l IH]; intros k p H; [destruct p; reflexivity|]. cbn [map List.length seq] in H. injection H as H1 H2.
  cbn [sum_at map]. rewrite H1. destruct p as [|p].
  - rewrite Nat.add_0_r, Nat.eqb_refl. cbn [nth_error].
    assert (K : sum_at l k = 0).
    { clear -H2. assert (G : forall q, In q (map rk_position l) -> k < q) by (rewrite H2; intros q Hq; apply in_seq in Hq; lia).
      clear H2. induction l as [|a l IH]; [reflexivity|]. cbn [sum_at]. cbn [map In] in G.
      destruct (Nat.eqb_spec (rk_position a) k) as [E|_]; [specialize (G _ (or_introl eq_refl)); lia|]. rewrite IH; [reflexivity|]. intros q Hq. apply G. right; exact Hq. }
    lia.
  - destruct (Nat.eqb_spec k (k + S p)) as [?|_]; [lia|]. cbn [nth_error]. replace (k + S p) with (S k + p) by lia. rewrite IH by exact H2. reflexivity.
Qed.

Section Files.
Variables (show10 show_double : dbl -> text).
Variable std_sort : forall A : Type, (A -> A -> bool) -> list A -> list A.
Hypothesis Hsort : sorts_lists std_sort.

(** ** The result file *)
Definition new_rows (rows : list (text * list dbl)) (c : list element) : list (text * list dbl) :=
  add_column rows (map el_solution c).
Definition shown (rows : list (text * list dbl)) : list (text * list text) := map (fun r => (fst r, map show10 (snd r))) rows.

Lemma cells_text_spec a i k row : (forall j v, nth_error row j = Some v -> dy_get a i (k + j) = Some v) ->
  cells_text show10 a i (seq k (List.length row)) = Some (List.concat (map (fun v => show10 v ++ [comma]) row)).
Proof.
  revert k. induction row as [|v row IH]; intros k H; cbn [List.length seq cells_text map List.concat]; [reflexivity|].
  rewrite <- (Nat.add_0_r k) at 1. rewrite (H 0 v eq_refl). cbn [bind]. rewrite IH.
  - cbn [bind]. rewrite <- app_assoc. reflexivity.
  - intros j u Hj. replace (S k + j) with (k + S j) by lia. apply H. exact Hj.
Qed.
Lemma commas_shift l (x : text) : comma :: List.concat (map (fun v => show10 v ++ [comma]) l) ++ x =
  List.concat (map (fun s => comma :: s) (map show10 l ++ [x])).
Proof.
  induction l as [|v l IH]; cbn [map List.concat app].
  - rewrite app_nil_r. reflexivity.
  - rewrite <- IH. rewrite <- !app_assoc. reflexivity.
Qed.
Lemma rows_text_spec b solvers : bn_solvers b = solvers -> forall rows c k,
  (forall i r, nth_error rows i = Some r -> List.length (snd r) = List.length solvers /\
     forall j v, nth_error (snd r) j = Some v -> dy_get (bn_array b) (k + i) j = Some v) ->
  List.length c = List.length rows ->
  rows_text show10 b (map fst rows) k c = Some (List.concat (map (fun r => csv_line (fst r) (snd r)) (shown (new_rows rows c)))).
Proof.
  intros Es. induction rows as [|[nm row] rows IH]; intros c k H Hl; [reflexivity|].
  destruct c as [|e c]; [discriminate Hl|]. cbn [map fst rows_text].
  destruct (H 0 (nm, row) eq_refl) as [Hr Hc]. cbn [snd] in Hr, Hc. rewrite Nat.add_0_r in Hc.
  rewrite Es, <- Hr, (cells_text_spec (bn_array b) k 0 row) by exact Hc. cbn [bind].
  rewrite IH; [| |cbn in Hl; lia].
  - cbn [bind]. unfold new_rows, add_column, shown. cbn [combine map List.concat fst snd]. f_equal. unfold csv_line.
    rewrite map_app. cbn [map]. change ","%char with comma. rewrite <- commas_shift. rewrite <- !app_assoc. cbn [app]. rewrite <- !app_assoc. reflexivity.
  - intros i r Hi. destruct (H (S i) r Hi) as [G1 G2]. split; [exact G1|]. intros j v Hj. replace (S k + i) with (k + S i) by lia. apply G2, Hj.
Qed.
Lemma header_spec b name : header_text b name = csv_line (str "file") (bn_solvers b ++ [name]).
Proof.
  unfold header_text, csv_line. rewrite map_app, concat_app. cbn [map List.concat]. rewrite app_nil_r, <- !app_assoc. reflexivity.
Qed.
Lemma save_spec b solvers rows c name : contains b solvers rows -> List.length c = List.length rows ->
  save_text show10 b name c = Some (csv_file (solvers ++ [name]) (shown (new_rows rows c))).
Proof.
  intros (Es & Em & Hc) Hl. unfold save_text. rewrite Em, (rows_text_spec b solvers Es rows c 0 Hc Hl). cbn [bind].
  rewrite header_spec, Es. reflexivity.
Qed.

(** ** The statistics file *)
Lemma line_values_spec a i k row : (forall j v, nth_error row j = Some v -> dy_get a i (k + j) = Some v) ->
  line_values a i (seq k (List.length row)) = Some row.
Proof.
  revert k. induction row as [|v row IH]; intros k H; cbn [List.length seq line_values]; [reflexivity|].
  rewrite <- (Nat.add_0_r k) at 1. rewrite (H 0 v eq_refl). cbn [bind]. rewrite IH; [reflexivity|].
  intros j u Hj. replace (S k + j) with (k + S j) by lia. apply H. exact Hj.
Qed.

Lemma line_values_app a i l1 l2 : line_values a i (l1 ++ l2) = do x <- line_values a i l1; do y <- line_values a i l2; Some (x ++ y).
Proof.
  induction l1 as [|j l1 IH]; cbn [app line_values]; [destruct (line_values a i l2); reflexivity|].
  rewrite IH. destruct (dy_get a i j); [|reflexivity]. cbn [bind]. destruct (line_values a i l1); [|reflexivity]. cbn [bind].
  destruct (line_values a i l2); reflexivity.
Qed.

Definition row_marked (v : list dbl) : Prop := exists mark, (mark = PosInf \/ mark = NegInf) /\ forall x, In x v -> is_number_or mark x.

Lemma stats_row_spec b solvers i row ty e stats x : bn_solvers b = solvers -> List.length row = List.length solvers ->
  (forall j v, nth_error row j = Some v -> dy_get (bn_array b) i j = Some v) ->
  dy_get (bn_array b) i (List.length solvers) = Some x ->
  row_marked (row ++ [el_solution e]) -> List.length stats = S (List.length solvers) ->
  exists ranks stats', stats_row std_sort b i ty e stats = Some (ranks, stats') /\
    dense_ranks (better ty) (row ++ [el_solution e]) ranks /\ List.length stats' = S (List.length solvers) /\
    forall p, nth_error stats' p = option_map (fun s => s + nth p ranks 0) (nth_error stats p).
Proof.
  intros Es Hl Hc Hx (mark & Hm & Hv) Hst. unfold stats_row. rewrite Es. cbv zeta.
  assert (EL : line_values (bn_array b) i (seq 0 (S (List.length solvers))) = Some (row ++ [x])).
  { rewrite seq_S, line_values_app, <- Hl, (line_values_spec (bn_array b) i 0 row) by exact Hc. cbn [bind line_values Nat.add].
    rewrite Hl, Hx. reflexivity. }
  rewrite EL. cbn [bind].
  assert (EF : firstn (List.length solvers) (row ++ [x]) = row).
  { rewrite <- Hl, firstn_app, Nat.sub_diag, firstn_all. cbn [firstn]. apply app_nil_r. }
  rewrite EF.
  destruct (ranks_dense (vbefore ty) (is_number_or mark) (vbefore_orders ty mark Hm) std_sort Hsort (row ++ [el_solution e]))
    as (l1 & l2 & l3 & E1 & E2 & E3 & HP & Epos & Hd).
  { destruct row; discriminate. }
  { exact Hv. }
  change (value_before ty) with (fun a b => vbefore ty (rk_value a) (rk_value b)). rewrite E1. cbn [bind]. rewrite E2. cbn [bind].
  assert (Hlen : List.length l3 = S (List.length solvers)).
  { apply (f_equal (@List.length _)) in Epos. rewrite map_length, combine_length, seq_length, Nat.min_id, app_length in Epos. cbn in Epos. lia. }
  assert (Hpos : map rk_position l3 = seq 0 (List.length l3)).
  { replace (map rk_position l3) with (map snd (map (fun r => (rk_value r, rk_position r)) l3)) by (rewrite map_map; reflexivity).
    rewrite Epos. replace (List.length l3) with (List.length (row ++ [el_solution e])) by (rewrite Hlen, app_length; cbn; lia).
    generalize (row ++ [el_solution e]). generalize 0. intros k l. revert k. induction l as [|v l IH]; intros k; cbn; [reflexivity|]. rewrite IH. reflexivity. }
  destruct (add_ranks_spec l2 stats) as (s & Ea & Ls & Hs).
  { intros r Hr. assert (Hr3 : In r l3) by (eapply Permutation_in; [apply Permutation_sym, HP|exact Hr]).
    assert (K : In (rk_position r) (map rk_position l3)) by (apply in_map, Hr3). rewrite Hpos in K. apply in_seq in K. lia. }
  rewrite Ea. cbn [bind]. rewrite E3. cbn [bind]. eexists _, _. split; [reflexivity|]. split; [|split; [lia|]].
  - eapply dense_ranks_ext; [|exact Hd]. intros v w. apply vbefore_better.
  - intros p. rewrite Hs. f_equal. rewrite <- (sum_at_perm l3 l2 p HP).
    pose proof (sum_at_positions l3 0 p Hpos) as K. cbn [Nat.add] in K. rewrite K.
    assert (nth p (map rk_rank l3) 0 = match nth_error (map rk_rank l3) p with Some r => r | None => 0 end) as ->; [|reflexivity].
    clear. generalize (map rk_rank l3). intros l. revert p. induction l as [|a l IH]; intros [|p]; cbn; auto.
Qed.


Lemma ranks_text_line nm ranks : nm ++ ranks_text ranks ++ [nl] = csv_line nm (map (fun r => show_int (Z.of_nat r)) ranks).
Proof. unfold ranks_text, csv_line. rewrite map_map. reflexivity. Qed.

Lemma stats_rows_spec b solvers : bn_solvers b = solvers -> forall rows types c k stats,
  List.length types = List.length rows -> List.length c = List.length rows -> List.length stats = S (List.length solvers) ->
  (forall i r, nth_error rows i = Some r -> List.length (snd r) = List.length solvers /\
     (forall j v, nth_error (snd r) j = Some v -> dy_get (bn_array b) (k + i) j = Some v) /\
     dy_get (bn_array b) (k + i) (List.length solvers) <> None) ->
  (forall r, In r (new_rows rows c) -> row_marked (snd r)) ->
  exists ranks stats',
    stats_rows std_sort b (combine (map fst rows) types) k c stats =
      Some (List.concat (map (fun nr => csv_line (fst nr) (map (fun r => show_int (Z.of_nat r)) (snd nr))) (combine (map fst rows) ranks)), stats') /\
    List.length ranks = List.length rows /\
    (forall i r ty rk, nth_error (new_rows rows c) i = Some r -> nth_error types i = Some ty -> nth_error ranks i = Some rk ->
       dense_ranks (better ty) (snd r) rk) /\
    List.length stats' = S (List.length solvers) /\
    forall p, nth_error stats' p = option_map (fun s => s + rank_sum ranks p) (nth_error stats p).
Proof.
  intros Es. induction rows as [|[nm row] rows IH]; intros types c k stats Ht Hl Hst H Hmark.
  - exists [], stats. cbn. split; [reflexivity|]. split; [reflexivity|]. split; [intros [|i] ? ? ? E; discriminate E|]. split; [exact Hst|].
    intros p. destruct (nth_error stats p); cbn; [f_equal; lia|reflexivity].
  - destruct types as [|ty types]; [discriminate Ht|]. destruct c as [|e c]; [discriminate Hl|].
    cbn [map fst combine stats_rows]. destruct (H 0 (nm, row) eq_refl) as (Hr & Hc & Hx). cbn [snd] in Hr, Hc. rewrite Nat.add_0_r in Hc, Hx.
    destruct (dy_get (bn_array b) k (List.length solvers)) as [x|] eqn:Ex; [|contradiction].
    destruct (stats_row_spec b solvers k row ty e stats x Es Hr Hc Ex) as (rk & s1 & E1 & Hd & L1 & Hs1).
    { apply (Hmark (nm, row ++ [el_solution e])). left. reflexivity. }
    { exact Hst. }
    rewrite E1. cbn [bind].
    destruct (IH types c (S k) s1) as (ranks & s2 & E2 & Lr & Hd2 & L2 & Hs2).
    + cbn in Ht; lia.
    + cbn in Hl; lia.
    + exact L1.
    + intros i r Hi. replace (S k + i) with (k + S i) by lia. apply (H (S i) r Hi).
    + intros r Hr'. apply Hmark. right. exact Hr'.
    + rewrite E2. cbn [bind]. exists (rk :: ranks), s2. split.
      * cbn [combine map List.concat fst snd]. rewrite <- ranks_text_line. rewrite <- !app_assoc. reflexivity.
      * split; [cbn; lia|]. split.
        -- intros [|i] r ty' rk' G1 G2 G3.
           ++ cbn in G1, G2, G3. injection G1 as <-. injection G2 as <-. injection G3 as <-. exact Hd.
           ++ apply (Hd2 i r ty' rk' G1 G2 G3).
        -- split; [exact L2|]. intros p. rewrite Hs2, Hs1. change (rank_sum (rk :: ranks) p) with (nth p rk 0 + rank_sum ranks p).
           destruct (nth_error stats p); cbn [option_map]; [f_equal; lia|reflexivity].
Qed.

Lemma final_spec count stats : count <> 0 -> stats <> [] ->
  exists ranks, final_text show_double std_sort count stats =
    Some (csv_line (str "mean") (map (fun s => show_double (mean_of s count)) stats) ++ csv_line (str "rank") (map (fun r => show_int (Z.of_nat r)) ranks)) /\
    dense_ranks (fun v w => dlt v w = true) (map (fun s => mean_of s count) stats) ranks.
Proof.
  intros Hc Hs. unfold final_text.
  destruct (ranks_dense dlt (fun v => exists q, v = Fin q) dlt_orders std_sort Hsort (map (fun s => mean_of s count) stats))
    as (l1 & l2 & l3 & E1 & E2 & E3 & HP & Epos & Hd).
  { destruct stats; [contradiction|discriminate]. }
  { intros v Hv. apply in_map_iff in Hv. destruct Hv as (s & <- & _). destruct count; [contradiction|]. cbn. eauto. }
  change mean_before with (fun a b => dlt (rk_value a) (rk_value b)). rewrite E1. cbn [bind]. rewrite E2. cbn [bind]. rewrite E3. cbn [bind].
  exists (map rk_rank l3). split; [|exact Hd]. rewrite <- ranks_text_line. unfold csv_line. rewrite !map_map, <- !app_assoc. reflexivity.
Qed.
End Files.
