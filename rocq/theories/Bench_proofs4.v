(** The whole benchmark. *)
From Coq Require Import QArith Ascii String Permutation Sorted Lqa.
From Verif Require Import Base Problem_model Params_model Writer_model ResultIO_model
  Dynarray_model Dynarray_spec Dynarray_proofs Bench_model Bench_spec Bench_proofs Bench_proofs2 Bench_proofs3.
Open Scope string_scope.
Open Scope list_scope.
Open Scope nat_scope.

(** ** The names of the files *)
Lemma is_prefix_iff p l : is_prefix p l = true <-> exists r, l = p ++ r.
Proof.
  revert l. induction p as [|a p IH]; intros l; cbn [is_prefix].
  - split; [intros _; exists l; reflexivity|reflexivity].
  - destruct l as [|b l]; [split; [discriminate|intros [r E]; discriminate E]|]. rewrite andb_true_iff, IH. split.
    + intros [E [r ->]]. apply Ascii.eqb_eq in E. subst. exists r. reflexivity.
    + intros [r E]. cbn in E. injection E as -> ->. rewrite Ascii.eqb_refl. split; [reflexivity|]. exists r. reflexivity.
Qed.
Lemma rfind_some p l i : rfind p l = Some i -> exists r, l = firstn i l ++ p ++ r /\ i <= List.length l /\ forall a b, l = a ++ p ++ b -> List.length a <= i.
Proof.
  revert i. induction l as [|c l IH]; intros i H.
  - cbn [rfind] in H. destruct (is_prefix p []) eqn:E; [|discriminate H]. injection H as <-. apply is_prefix_iff in E. destruct E as [r E].
    exists r. split; [exact E|]. split; [reflexivity|]. intros a b Eab. symmetry in Eab. apply app_eq_nil in Eab. destruct Eab as [-> _]. reflexivity.
  - cbn [rfind] in H. destruct (rfind p l) as [j|] eqn:E.
    + injection H as <-. destruct (IH j eq_refl) as (r & E1 & L & M). exists r. split; [cbn [firstn app]; f_equal; exact E1|]. split; [cbn; lia|].
      intros [|x a] b Eab; [cbn; lia|]. cbn [app] in Eab. injection Eab as _ Eab. cbn. specialize (M a b Eab). lia.
    + destruct (is_prefix p (c :: l)) eqn:E2; [|discriminate H]. injection H as <-. apply is_prefix_iff in E2. destruct E2 as [r E2]. exists r.
      split; [exact E2|]. split; [lia|]. intros [|x a] b Eab; [cbn; lia|]. exfalso. cbn [app] in Eab. injection Eab as _ Eab.
      clear -E Eab. revert l E Eab. induction a as [|y a IHa]; intros l E Eab.
      * cbn [app] in Eab. assert (K : is_prefix p l = true) by (apply is_prefix_iff; exists b; exact Eab).
        destruct l as [|d l]; cbn [rfind] in E; [rewrite K in E; discriminate E|]. destruct (rfind p l); [discriminate E|]. rewrite K in E. discriminate E.
      * cbn [app] in Eab. destruct l as [|d l]; [discriminate Eab|]. injection Eab as <- Eab. cbn [rfind] in E. destruct (rfind p l) eqn:E3; [discriminate E|]. eapply IHa; eassumption.
Qed.
Lemma rfind_none p l a b : rfind p l = None -> l <> a ++ p ++ b.
Proof.
  revert a. induction l as [|c l IH]; intros a H E; cbn [rfind] in H.
  - destruct (is_prefix p []) eqn:K; [discriminate H|]. symmetry in E. apply app_eq_nil in E. destruct E as [_ E]. apply app_eq_nil in E. destruct E as [-> _]. discriminate K.
  - destruct (rfind p l) eqn:E2; [discriminate H|]. destruct a as [|x a].
    + cbn [app] in E. assert (K : is_prefix p (c :: l) = true) by (apply is_prefix_iff; exists b; exact E). rewrite K in H. discriminate H.
    + cbn [app] in E. injection E as _ E. eapply IH; eauto.
Qed.
Lemma rfind_last base p : p <> [] -> rfind p (base ++ p) = Some (List.length base).
Proof.
  intros Hp. destruct (rfind p (base ++ p)) as [i|] eqn:E.
  - destruct (rfind_some _ _ _ E) as (r & E1 & L & M).
    assert (H1 : List.length base <= i) by (apply (M base []); rewrite app_nil_r; reflexivity).
    assert (H2 : i <= List.length base).
    { pose proof (f_equal (@List.length _) E1) as K. rewrite !app_length, firstn_length, app_length in K. rewrite app_length in L. lia. }
    f_equal. lia.
  - exfalso. apply (rfind_none _ _ base [] E). rewrite app_nil_r. reflexivity.
Qed.
Lemma model_dir_spec base : model_dir (base ++ str ".csv") = base ++ str "/".
Proof. unfold model_dir. rewrite rfind_last by discriminate. cbn [before]. rewrite firstn_app, Nat.sub_diag, firstn_all. cbn [firstn]. rewrite app_nil_r. reflexivity. Qed.
Lemma same_text_iff a b : same_text a b = true <-> a = b.
Proof. unfold same_text. destruct (list_eq_dec ascii_dec a b); split; congruence. Qed.
Lemma have_lp_iff nm : have_lp_extension nm = true <-> exists stem rest, nm = stem ++ str ".lp" ++ rest /\ ~ In "."%char rest.
Proof.
  unfold have_lp_extension. split.
  - destruct (rfind (str ".") nm) as [i|] eqn:E; [|discriminate]. intros H. apply same_text_iff in H.
    destruct (rfind_some _ _ _ E) as (r & E1 & L & M).
    exists (firstn i nm), (skipn 3 (skipn i nm)).
    assert (E2 : nm = firstn i nm ++ str ".lp" ++ skipn 3 (skipn i nm)).
    { rewrite <- H, firstn_skipn, firstn_skipn. reflexivity. }
    split; [exact E2|]. intros K. apply in_split in K. destruct K as (u & v & K).
    specialize (M (firstn i nm ++ str ".lp" ++ u) v). rewrite !app_length, firstn_length in M.
    enough (Nat.min i (List.length nm) + (List.length (str ".lp") + List.length u) <= i) by (change (List.length (str ".lp")) with 3 in H0; lia).
    apply M. rewrite <- !app_assoc. rewrite E2 at 1. rewrite K. reflexivity.
  - intros (stem & rest & -> & Hr). destruct (rfind (str ".") (stem ++ str ".lp" ++ rest)) as [i|] eqn:E.
    + destruct (rfind_some _ _ _ E) as (r & E1 & L & M).
      assert (H1 : List.length stem <= i) by (apply (M stem (str "lp" ++ rest)); reflexivity).
      assert (H2 : i = List.length stem).
      { destruct (Nat.eq_dec i (List.length stem)) as [|N]; [assumption|]. exfalso. apply Hr.
        assert (K : nth_error (stem ++ str ".lp" ++ rest) i = Some "."%char).
        { rewrite E1. rewrite nth_error_app2 by (rewrite firstn_length; lia). rewrite firstn_length, Nat.min_l by lia. rewrite Nat.sub_diag. reflexivity. }
        rewrite nth_error_app2 in K by lia. destruct (i - List.length stem) as [|[|[|k]]] eqn:Ek; [lia|discriminate K|discriminate K|].
        cbn in K. eapply nth_error_In, K. }
      subst i. rewrite skipn_app, skipn_all, Nat.sub_diag. reflexivity.
    + exfalso. apply (rfind_none _ _ stem (str "lp" ++ rest) E). reflexivity.
Qed.
Lemma model_path_spec base nm : plain_name nm -> model_path base nm (model_dir (base ++ str ".csv") ++ model_file nm).
Proof.
  intros Hp. rewrite model_dir_spec. unfold model_file, model_path. rewrite <- app_assoc. destruct (have_lp_extension nm) eqn:E.
  - left. apply have_lp_iff in E. destruct E as (stem & rest & -> & Hr). destruct (Hp stem rest eq_refl) as [K| ->]; [contradiction|].
    exists stem. rewrite app_nil_r. split; reflexivity.
  - right. split; [|reflexivity]. intros stem ->. assert (K : have_lp_extension (stem ++ str ".lp") = true); [|congruence].
    apply have_lp_iff. exists stem, []. rewrite app_nil_r. split; [reflexivity|]. intros [].
Qed.
Lemma model_path_det base nm p q : model_path base nm p -> model_path base nm q -> p = q.
Proof. intros [(s & E & ->)|[N ->]] [(s' & E' & ->)|[N' ->]]; try reflexivity; exfalso; [exact (N' _ E)|exact (N _ E')]. Qed.

Section Whole.
Variable to_double : text -> option dbl.
Variables (show10 show_double : dbl -> text).
Variable std_sort : forall A : Type, (A -> A -> bool) -> list A -> list A.
Variable run : nat -> text -> run_end.

Definition element_for (r : run_end) : element := mk_element (recorded r) (no_exception r).
Lemma last_rev {A} (l : list A) (d v : A) m : rev l = v :: m -> last l d = v.
Proof. intros E. assert (l = rev m ++ [v]) as -> by (rewrite <- (rev_involutive l), E; reflexivity). apply last_last. Qed.
Lemma run_models_spec dir : forall names k,
  (forall i nm, nth_error names i = Some nm -> run_ok (run (k + i) (dir ++ model_file nm))) ->
  let rs := map (fun ip => run (fst ip) (snd ip)) (combine (seq k (List.length names)) (map (fun nm => dir ++ model_file nm) names)) in
  run_models run dir (map (fun nm => (nm, minimize)) names) k = Some (Some (combine names (map kind rs), map element_for rs)).
Proof.
  induction names as [|nm names IH]; intros k H; [reflexivity|]. cbn [map List.length seq combine run_models fst snd].
  assert (IH' := IH (S k)). cbv zeta in IH'. rewrite IH'; [|intros i n Hi; replace (S k + i) with (k + S i) by lia; apply H; exact Hi].
  specialize (H 0 nm eq_refl). rewrite Nat.add_0_r in H. clear IH IH'.
  destruct (run k (dir ++ model_file nm)) as [|[ty|]|ty values|ty]; cbn [run_ok] in H; [contradiction|reflexivity|reflexivity| |reflexivity].
  cbn [kind]. change (element_for (Run_success ty values)) with (mk_element (last values PosInf) true).
  destruct (rev values) as [|v m] eqn:Er.
  - exfalso. apply H. rewrite <- (rev_involutive values), Er. reflexivity.
  - rewrite (last_rev _ PosInf _ _ Er). reflexivity.
Qed.
Lemma map_fst_combine {A B} (l : list A) (l' : list B) : List.length l = List.length l' -> map fst (combine l l') = l.
Proof. revert l'. induction l as [|a l IH]; intros [|b l'] H; cbn in *; try discriminate; try reflexivity. f_equal. apply IH. lia. Qed.

Lemma comparable_marked v : comparable v -> row_marked v.
Proof.
  intros [HN HI]. unfold row_marked.
  assert (D : In NegInf v \/ ~ In NegInf v).
  { clear. induction v as [|a v [IH|IH]]; [right; intros []|left; right; exact IH|]. destruct a; [| left; left; reflexivity| |]; right; intros [K|K]; congruence || contradiction. }
  destruct D as [D|D].
  - exists NegInf. split; [right; reflexivity|]. intros x Hx. unfold is_number_or. destruct x as [| | |q]; [contradiction|left; reflexivity|exfalso; apply HI; split; assumption|right; eauto].
  - exists PosInf. split; [left; reflexivity|]. intros x Hx. unfold is_number_or. destruct x as [| | |q]; [contradiction|contradiction|left; reflexivity|right; eauto].
Qed.
Lemma nth_add_column rows column i r : nth_error (add_column rows column) i = Some r ->
  exists r0 v, nth_error rows i = Some r0 /\ nth_error column i = Some v /\ r = (fst r0, snd r0 ++ [v]).
Proof.
  unfold add_column. intros H. rewrite nth_error_map in H. destruct (nth_error (combine rows column) i) as [[r0 v]|] eqn:E; [|discriminate H].
  cbn in H. injection H as <-. exists r0, v.
  revert column i E. induction rows as [|a rows IH]; intros [|c column] [|i] E; try discriminate E.
  - cbn in E. injection E as -> ->. auto.
  - cbn in E. apply IH in E. exact E.
Qed.
Lemma add_column_length rows column : List.length column = List.length rows -> List.length (add_column rows column) = List.length rows.
Proof. intros H. unfold add_column. rewrite map_length, combine_length, H. apply Nat.min_id. Qed.

(** The state of the benchmark once a table is loaded. *)
Record ready (solvers : list text) (rows : list (text * list dbl)) (b : bench) : Prop := {
  r_contains : contains b solvers rows;
  r_models : bn_models b = map (fun nm => (nm, minimize)) (map fst rows);
  r_past : solvers <> [] -> List.length rows < 512 -> forall i, i < List.length rows -> dy_get (bn_array b) i (List.length solvers) <> None }.

Lemma load_ready solvers rows :
  (forall s, In s solvers -> is_solver_name s) -> (forall s, In s (removelast solvers) -> List.length s <> 1) ->
  (forall r, In r rows -> is_model_name (fst r) /\ Forall is_part (snd r) /\ List.length (snd r) = List.length solvers) ->
  exists b, load to_double (csv_file solvers rows) = Some (inl b) /\
    ready solvers (map (fun r => (fst r, map (cell_of to_double) (snd r))) rows) b.
Proof.
  intros H1 H2 H3. destruct (load_table to_double solvers rows H1 H2 H3) as (b & E & Hc). exists b. split; [exact E|].
  destruct (load_any to_double (csv_file solvers rows)) as [_ HA]. destruct (HA b E) as (rows' & Hc' & Hm & _ & _ & _ & Hh).
  destruct Hc as (Es & Em & Hcell). rewrite Es in Hh.
  assert (Hlen : List.length rows' = List.length rows).
  { apply (f_equal (@List.length _)) in Em. rewrite Hm, !map_length in Em. exact Em. }
  constructor.
  - split; [exact Es|]. split; assumption.
  - rewrite <- Em, Hm, !map_map. reflexivity.
  - intros Hs Hn i Hi. rewrite map_length in Hn, Hi. destruct (h_array _ _ _ Hh Hs) as (calls & Hinv & Hr & _).
    destruct (inv_cap _ _ _ _ _ Hinv) as [_ Hcap]. change size_max with 512 in Hcap.
    unfold dy_get. rewrite (inv_cols _ _ _ _ _ Hinv). apply nth_error_Some. rewrite (inv_length _ _ _ _ _ Hinv).
    assert (0 < List.length solvers) by (destruct solvers; [contradiction|cbn; lia]). nia.
Qed.

Section Table.
Variables (solvers : list text) (rows : list (text * list dbl)) (b : bench).
Hypothesis Hready : ready solvers rows b.
Variable column : list run_end.
Hypothesis Hcol : List.length column = List.length rows.
Let b' := mk_bench (combine (map fst rows) (map kind column)) (bn_solvers b) (bn_array b).
Let c := map element_for column.
Let table := add_column rows (map recorded column).
Variable name : text.

Lemma contains' : contains b' solvers rows.
Proof.
  destruct (r_contains _ _ _ Hready) as (Es & Em & Hc). split; [exact Es|]. split; [|exact Hc].
  cbn [b' bn_models]. apply map_fst_combine. rewrite !map_length. lia.
Qed.
Lemma new_rows' : new_rows rows c = table.
Proof. unfold new_rows, c, table. rewrite map_map. reflexivity. Qed.
Lemma save' : save_text show10 b' name c = Some (csv_file (solvers ++ [name]) (shown show10 table)).
Proof. rewrite <- new_rows'. apply save_spec; [exact contains'|]. unfold c. rewrite map_length. exact Hcol. Qed.

Hypothesis Hsort : sorts_lists std_sort.
Hypothesis Hs : solvers <> [].
Hypothesis Hn : 0 < List.length rows < 512.
Hypothesis Hcmp : forall r, In r table -> comparable (snd r).

Lemma stats' : exists ranks final,
  stats_text show_double std_sort b' name c =
    Some (csv_line (str "file") (solvers ++ [name]) ++
          List.concat (map (fun nr => csv_line (fst nr) (map (fun r => show_int (Z.of_nat r)) (snd nr))) (combine (map fst rows) ranks)) ++
          csv_line (str "mean") (map (fun p => show_double (Fin (Z.of_nat (rank_sum ranks p) # Pos.of_nat (List.length rows)))) (seq 0 (S (List.length solvers)))) ++
          csv_line (str "rank") (map (fun r => show_int (Z.of_nat r)) final)) /\
  List.length ranks = List.length rows /\
  (forall i r k rk, nth_error table i = Some r -> nth_error column i = Some k -> nth_error ranks i = Some rk ->
     dense_ranks (better (kind k)) (snd r) rk) /\
  dense_ranks (fun v w => dlt v w = true) (map (fun p => Fin (Z.of_nat (rank_sum ranks p) # Pos.of_nat (List.length rows))) (seq 0 (S (List.length solvers)))) final.
Proof.
  destruct (r_contains _ _ _ Hready) as (Es & Em & Hc).
  unfold stats_text.
  destruct (stats_rows_spec std_sort Hsort b' solvers Es rows (map kind column) c 0 (repeat 0 (S (List.length solvers))))
    as (ranks & stats & E & Lr & Hd & Ls & Hst).
  - rewrite map_length. exact Hcol.
  - unfold c. rewrite map_length. exact Hcol.
  - apply repeat_length.
  - intros i r Hi. destruct (Hc i r Hi) as [G1 G2]. split; [exact G1|]. split; [exact G2|].
    change (0 + i) with i. apply (r_past _ _ _ Hready Hs (proj2 Hn)). apply nth_error_Some. rewrite Hi. discriminate.
  - intros r Hr. rewrite new_rows' in Hr. apply comparable_marked, Hcmp, Hr.
  - change (bn_models b') with (combine (map fst rows) (map kind column)). change (bn_solvers b') with (bn_solvers b). rewrite Es, E. cbn [bind].
    assert (Hlen : List.length (combine (map fst rows) (map kind column)) = List.length rows).
    { rewrite combine_length, !map_length, Hcol. apply Nat.min_id. }
    rewrite Hlen.
    assert (Estats : stats = map (rank_sum ranks) (seq 0 (S (List.length solvers)))).
    { apply nth_error_ext. intros p. rewrite Hst, nth_error_map.
      destruct (Nat.lt_ge_cases p (S (List.length solvers))) as [L|L].
      - assert (Ep : nth_error (seq 0 (S (List.length solvers))) p = Some p).
        { rewrite (nth_error_nth' _ 0) by (rewrite seq_length; exact L). rewrite seq_nth by exact L. reflexivity. }
        rewrite Ep. cbn [option_map].
        assert (Er : nth_error (repeat 0 (S (List.length solvers))) p = Some 0).
        { rewrite (nth_error_nth' _ 0) by (rewrite repeat_length; exact L). rewrite nth_repeat. reflexivity. }
        rewrite Er. reflexivity.
      - rewrite (proj2 (nth_error_None _ _)) by (rewrite repeat_length; exact L).
        rewrite (proj2 (nth_error_None _ _)) by (rewrite seq_length; exact L). reflexivity. }
    destruct (final_spec show_double std_sort Hsort (List.length rows) stats) as (final & Ef & Hf).
    + lia.
    + intros K. rewrite K in Ls. discriminate Ls.
    + rewrite Ef. cbn [bind]. exists ranks, final. 
      assert (Emean : forall s, mean_of s (List.length rows) = Fin (Z.of_nat s # Pos.of_nat (List.length rows))).
      { intros s. unfold mean_of. destruct (List.length rows) eqn:K; [lia|reflexivity]. }
      split; [|split; [exact Lr|split]].
      * rewrite header_spec. change (bn_solvers b') with (bn_solvers b). rewrite Es, Estats, map_map.
        do 2 f_equal. f_equal. f_equal. f_equal. apply map_ext. intros p. rewrite Emean. reflexivity.
      * intros i r k rk G1 G2 G3. rewrite <- new_rows' in G1. eapply Hd; [exact G1| |exact G3]. rewrite nth_error_map, G2. reflexivity.
      * rewrite Estats, map_map in Hf. rewrite (map_ext _ (fun p => Fin (Z.of_nat (rank_sum ranks p) # Pos.of_nat (List.length rows)))) in Hf by (intros p; apply Emean). exact Hf.
Qed.

Lemma console' : (forall r v, In r table -> In v (snd r) -> v <> NaN /\ forall q, v = Fin q -> ~ (q == 0)%Q) -> console_ok b' c = true.
Proof.
  intros H. destruct (r_contains _ _ _ Hready) as (Es & Em & Hc).
  assert (Hlen : List.length (combine (map fst rows) (map kind column)) = List.length rows).
  { rewrite combine_length, !map_length, Hcol. apply Nat.min_id. }
  assert (Hin : forall i r0 v0, nth_error rows i = Some r0 -> nth_error (map recorded column) i = Some v0 -> In (fst r0, snd r0 ++ [v0]) table).
  { intros i r0 v0 G1 G2. unfold table, add_column. apply in_map_iff. exists (r0, v0). split; [reflexivity|].
    revert G1 G2. generalize (map recorded column). clear. revert i. induction rows as [|a l IH]; intros [|i] [|d l'] G1 G2; try discriminate.
    - injection G1 as <-. injection G2 as <-. left; reflexivity.
    - right. eapply IH; eassumption. }
  assert (Hdig : forall v, (v <> NaN /\ forall q, v = Fin q -> ~ (q == 0)%Q) -> digits_ok v = true).
  { intros v [G1 G2]. destruct v as [| | |q]; cbn; try reflexivity; [contradiction|]. apply negb_true_iff. destruct (Qeq_bool q 0) eqn:K; [|reflexivity].
    apply Qeq_bool_iff in K. exfalso. exact (G2 q eq_refl K). }
  unfold console_ok. change (bn_models b') with (combine (map fst rows) (map kind column)).
  destruct (combine (map fst rows) (map kind column)) as [|m0 ms] eqn:Ec; [cbn in Hlen; lia|]. rewrite <- Ec.
  apply andb_true_iff. split.
  - apply forallb_forall. intros i Hi. apply in_seq in Hi. rewrite Ec, Hlen in Hi. apply forallb_forall. intros j Hj. apply in_seq in Hj.
    change (bn_solvers b') with (bn_solvers b) in Hj. rewrite Es in Hj.
    destruct (nth_error rows i) as [r|] eqn:Er; [|apply nth_error_None in Er; lia]. destruct (Hc i r Er) as [G1 G2].
    destruct (nth_error (snd r) j) as [v|] eqn:Ev; [|apply nth_error_None in Ev; lia]. change (bn_array b') with (bn_array b). rewrite (G2 j v Ev).
    destruct (nth_error (map recorded column) i) as [v0|] eqn:E0; [|apply nth_error_None in E0; rewrite map_length in E0; lia].
    apply orb_true_iff. right. apply Hdig. apply (H _ v (Hin i r v0 Er E0)). apply in_or_app. left. eapply nth_error_In, Ev.
  - apply forallb_forall. intros e He. unfold c in He. apply In_nth_error in He. destruct He as [i He]. rewrite nth_error_map in He.
    destruct (nth_error column i) as [k|] eqn:Ek; [|discriminate He]. cbn in He. injection He as <-. cbn [element_for el_solution el_success].
    destruct (nth_error rows i) as [r|] eqn:Er; [|apply nth_error_None in Er; assert (i < List.length column) by (apply nth_error_Some; rewrite Ek; discriminate); lia].
    apply orb_true_iff. right. apply Hdig.
    assert (E0 : nth_error (map recorded column) i = Some (recorded k)) by (rewrite nth_error_map, Ek; reflexivity).
    apply (H _ (recorded k) (Hin i r _ Er E0)). apply in_or_app. right. left. reflexivity.
Qed.
Lemma found' : found c = List.length (filter no_exception column).
Proof. unfold found, c. clear. induction column as [|k l IH]; [reflexivity|]. cbn. destruct (no_exception k); cbn; rewrite IH; reflexivity. Qed.
End Table.
End Whole.
