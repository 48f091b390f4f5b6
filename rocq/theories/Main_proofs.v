(** Proofs about main(). *)
From Coq Require Import Ascii String.
From Verif Require Import Base Problem_model Problem_spec Merged_model Merged_spec Classify_model Preprocess_model Preprocess_spec
  Validate_model Validate_spec Validate_proofs Params_model ResultIO_model ResultIO_spec ResultIO_proofs ResultIO_props
  Chars_spec Lexer_model Lexer_spec Parser_model Parser_spec Parser_proofs Parser_proofs2 Parser_proofs5 Parser_proofs7 Parser_props
  Writer_model Rows_model Rows_spec Solver_model Solver_spec EndToEnd_model EndToEnd_spec EndToEnd_proofs Main_model Main_spec.
Open Scope Z_scope.
Open Scope list_scope.

(** ** The problem of a document *)
Lemma to_problem_wf {D} (cost : D -> Z) (p : raw_problem (D := D)) :
  Parser_spec.well_formed p -> Preprocess_spec.well_formed (to_problem cost p).
Proof.
  intros [H1 H2 H3 H4 H5 _]. unfold Preprocess_spec.well_formed, to_problem, all_constraints. cbn.
  split; [lia|]. split; [assumption|]. rewrite H2. split; [|split; [|split; [|split]]].
  - intros c e Hc He. destruct (H5 c Hc) as [_ [_ Hf]]. rewrite Forall_forall in Hf. apply Hf. apply in_map. assumption.
  - intros c Hc. destruct (H5 c Hc) as [_ [Hn _]]. assumption.
  - intros e He. apply in_map_iff in He. destruct He as (e' & <- & He'). cbn. destruct H3 as [_ Hf]. rewrite Forall_forall in Hf. apply Hf. apply in_map. assumption.
  - rewrite map_map. cbn. exact (proj1 H3).
  - intros q Hq. apply in_map_iff in Hq. destruct Hq as (e' & <- & He'). destruct H4 as [_ Hf]. rewrite Forall_forall in Hf.
    specialize (Hf (pair_of e') (in_map _ _ _ He')). destruct e' as [[f a] b]. exact Hf.
Qed.

Section Document.
Context {D : Type} (dn : dops D).

Lemma fold_sum (l : list Z) a : fold_left Z.add l a = a + fold_right Z.add 0 l.
Proof. revert a. induction l as [|b l IH]; intros a; cbn; [lia|]. rewrite IH. lia. Qed.

(** Grouping the terms by names. *)
Definition group (c : term -> Z) (l : list term) (nm : text) : Z := fold_right Z.add 0 (map c (terms_of nm l)).
Lemma group_cons c t l nm : group c (t :: l) nm = (if text_eqb (t_var t) nm then c t else 0) + group c l nm.
Proof. unfold group, terms_of. cbn [filter]. destruct (text_eqb (t_var t) nm); cbn; lia. Qed.
Lemma group_sum c (w : text -> Z) l : forall N, NoDup N -> (forall t, In t l -> In (t_var t) N) ->
  fold_right Z.add 0 (map (fun nm => group c l nm * w nm) N) = fold_right Z.add 0 (map (fun t => c t * w (t_var t)) l).
Proof.
  induction l as [|t l IH]; intros N Hn Hin; cbn [map fold_right].
  - clear. induction N as [|nm N IHN]; [reflexivity|]. cbn [map fold_right]. rewrite IHN. unfold group. cbn. lia.
  - rewrite <- (IH N Hn) by (intros t' Ht'; apply Hin; right; assumption).
    assert (Ht : In (t_var t) N) by (apply Hin; left; reflexivity). clear - Hn Ht.
    induction N as [|nm N IHN]; [destruct Ht|]. inversion Hn; subst. cbn [map fold_right]. rewrite group_cons.
    destruct (text_eqb_spec (t_var t) nm) as [E|E].
    + subst nm. assert (Hs : forall f, fold_right Z.add 0 (map (fun nm => group c (t :: l) nm * f nm) N) = fold_right Z.add 0 (map (fun nm => group c l nm * f nm) N)).
      { intros f. f_equal. apply map_ext_in. intros nm Hm. rewrite group_cons. destruct (text_eqb_spec (t_var t) nm) as [E|E]; [subst; contradiction|]. ring. }
      rewrite Hs. ring.
    + destruct Ht as [Ht|Ht]; [congruence|]. rewrite IHN by assumption. ring.
Qed.
Lemma group_abs l : forall N, NoDup N -> (forall t, In t l -> In (t_var t) N) ->
  fold_right Z.add 0 (map (fun nm => Z.abs (group (coefficient dn) l nm)) N) <= fold_right Z.add 0 (map (fun t => Z.abs (coefficient dn t)) l).
Proof.
  intros N Hn Hin. pose proof (group_sum (fun t => Z.abs (coefficient dn t)) (fun _ => 1) l N Hn Hin) as H.
  assert (H1 : forall nm, Z.abs (group (coefficient dn) l nm) <= group (fun t => Z.abs (coefficient dn t)) l nm * 1).
  { intros nm. unfold group. induction (terms_of nm l) as [|t r IH]; cbn; lia. }
  assert (H2 : fold_right Z.add 0 (map (fun t => Z.abs (coefficient dn t) * 1) l) = fold_right Z.add 0 (map (fun t => Z.abs (coefficient dn t)) l)).
  { f_equal. apply map_ext. intros. lia. }
  rewrite <- H2, <- H. clear - H1. induction N as [|nm N IH]; cbn; [lia|]. specialize (H1 nm). lia.
Qed.

(** An assignment by index and a valuation by name that say the same. *)
Definition by_name (names : list text) (X : assignment) (V : valuation) : Prop := forall nm, In nm names -> X (position nm names) = V nm.
Lemma lhs_elements names X V l : by_name names X V -> (forall t, In t l -> In (t_var t) names) ->
  lhs X (elements_of dn names l) = fold_right Z.add 0 (map (fun t => coefficient dn t * bz (V (t_var t))) l).
Proof.
  intros HV Hin. rewrite <- (group_sum (coefficient dn) (fun nm => bz (V nm)) l (firsts (map t_var l)) (firsts_NoDup _)).
  2: { intros t Ht. apply firsts_In. apply in_map. assumption. }
  assert (Hn : forall nm, In nm (firsts (map t_var l)) -> In nm names).
  { intros nm H. apply (proj1 (firsts_In _ _)) in H. apply in_map_iff in H. destruct H as (t & <- & Ht). apply Hin. assumption. }
  unfold elements_of. induction (firsts (map t_var l)) as [|nm N IH]; [reflexivity|]. cbn [map lhs fold_right f_factor f_var].
  rewrite IH by (intros; apply Hn; right; assumption). rewrite HV by (apply Hn; left; reflexivity).
  rewrite fold_sum. reflexivity.
Qed.
Lemma abs_elements names l :
  abs_sum (elements_of dn names l) <= fold_right Z.add 0 (map (fun t => Z.abs (coefficient dn t)) l).
Proof.
  rewrite <- (group_abs l (firsts (map t_var l)) (firsts_NoDup _)).
  2: { intros t Ht. apply firsts_In. apply in_map. assumption. }
  unfold elements_of. induction (firsts (map t_var l)) as [|nm N IH]; [cbn; lia|]. cbn [map fold_right abs_sum f_factor].
  rewrite fold_sum. unfold abs_sum in IH. cbn [fold_right] in *. change (0 + ?a) with a. unfold group, coefficient in *. lia.
Qed.

Lemma constraints_of_in op names l c : In c (constraints_of dn op names l) ->
  exists id k, In k l /\ k_op k = op /\ c = constraint_of dn names id k.
Proof.
  unfold constraints_of. intros H. apply in_map_iff in H. destruct H as ([id k] & <- & H). apply filter_In in H. cbn [fst snd] in *.
  destruct H as [H1 H2]. exists id, k. split; [eapply in_combine_r; eassumption|]. split; [|reflexivity].
  destruct (k_op k), op; try discriminate; reflexivity.
Qed.
Lemma constraints_of_has names l k : In k l -> exists id, In (constraint_of dn names id k) (constraints_of dn (k_op k) names l).
Proof.
  intros H. apply In_nth_error in H. destruct H as [i Hi]. exists i. unfold constraints_of.
  apply in_map_iff. exists (i, k). split; [reflexivity|]. apply filter_In. split; [|cbn; destruct (k_op k); reflexivity].
  assert (Hlt : (i < List.length l)%nat) by (apply nth_error_Some; congruence).
  destruct (nth_error_combine_some (seq 0 (List.length l)) l i) as (x & y & Hx & Hy & Hin); [rewrite seq_length; lia|apply seq_length|].
  rewrite (nth_error_nth' _ 0%nat) in Hx by (rewrite seq_length; lia). rewrite seq_nth in Hx by lia. cbn in Hx. congruence.
Qed.
Lemma document_terms d k t : In k (dc_constraints d) -> In t (cst_terms k) -> In (t_var t) (document_names d).
Proof.
  intros Hk Ht. unfold document_names. apply firsts_In. apply in_or_app. right. apply in_flat_map. exists k. split; [assumption|]. apply in_map. assumption.
Qed.

Variable cost : D -> Z.
Variables (ty : objective_type) (d : document).
Let pb := to_problem cost (meaning dn ty d).
Let N := document_names d.

Lemma problem_constraints c op : In c (constraints_of dn op N (dc_constraints d)) -> In c (all_constraints pb).
Proof. intros H. unfold all_constraints, pb, to_problem, meaning. cbn. destruct op; apply in_or_app; [left|right|right]; try apply in_or_app; auto. Qed.
Lemma feasible_satisfies X V : by_name N X V -> (feasible X pb <-> satisfies dn V d).
Proof.
  intros HV.
  assert (Hl : forall k id, In k (dc_constraints d) -> lhs X (c_elements (constraint_of dn N id k)) = cst_sum dn V k).
  { intros k id Hk. cbn [constraint_of c_elements]. apply (lhs_elements N X V); [assumption|]. intros t Ht. eapply document_terms; eassumption. }
  unfold satisfies. rewrite Forall_forall. split.
  - intros (He & Hg & Hlt) k Hk. destruct (constraints_of_has N _ _ Hk) as [id Hin]. unfold cst_holds.
    destruct (k_op k); [specialize (He _ Hin); unfold sat_equal in He|specialize (Hg _ Hin); unfold sat_greater in Hg|specialize (Hlt _ Hin); unfold sat_less in Hlt];
      rewrite <- (Hl k id Hk); assumption.
  - intros H. unfold feasible, pb, to_problem, meaning; cbn. split; [|split]; intros c Hc; apply constraints_of_in in Hc; destruct Hc as (id & k & Hk & Hop & ->);
      specialize (H k Hk); unfold cst_holds in H; rewrite Hop in H; rewrite <- (Hl k id Hk) in H; exact H.
Qed.
Lemma bounds_within X V : by_name N X V -> (in_bounds X pb <-> within_bounds dn V d).
Proof.
  intros HV. unfold in_bounds, within_bounds, pb, to_problem, meaning. cbn [p_vars v_values rw_vars]. fold N. split.
  - intros H nm Hnm. specialize (H (position nm N) (variable_of dn d nm)). rewrite HV in H by assumption. apply H.
    apply map_nth_error. apply position_nth. assumption.
  - intros H i v Hi. rewrite nth_error_map in Hi. destruct (nth_error N i) as [nm|] eqn:E; [|discriminate]. cbn in Hi. inversion Hi; subst v.
    assert (Hin : In nm N) by (eapply nth_error_In; eassumption).
    assert (Hp : position nm N = i).
    { apply (proj1 (NoDup_nth_error N) (firsts_NoDup _)); [apply position_lt; assumption|]. rewrite position_nth by assumption. congruence. }
    rewrite <- Hp, HV by assumption. apply H. assumption.
Qed.
Lemma zero_one_binary : zero_one_bounds dn d -> binary_bounds pb.
Proof.
  intros H v Hv. unfold pb, to_problem, meaning in Hv. cbn in Hv. apply in_map_iff in Hv. destruct Hv as (nm & <- & Hnm). apply H. assumption.
Qed.
Lemma small_sums_document : small_csts dn d -> small_sums pb.
Proof.
  intros H c Hc. unfold small_csts in H. rewrite Forall_forall in H. unfold all_constraints, pb, to_problem, meaning in Hc. cbn in Hc.
  repeat (apply in_app_or in Hc; destruct Hc as [Hc|Hc]); apply constraints_of_in in Hc; destruct Hc as (id & k & Hk & _ & ->); cbn [constraint_of c_elements];
    (etransitivity; [apply abs_elements|apply H; assumption]).
Qed.
End Document.

Lemma lhs_abs x l : - abs_sum l <= lhs x l <= abs_sum l.
Proof. induction l as [|e l IH]; cbn [lhs abs_sum fold_right]; [lia|]. unfold abs_sum in IH. unfold bz. destruct (x (f_var e)); lia. Qed.
Lemma small_fits pb : small_sums pb -> forall X, fits_int X pb.
Proof. intros H X c Hc. specialize (H c Hc). pose proof (lhs_abs X (c_elements c)). unfold int_min, int_max in *. lia. Qed.

(** ** Files made of lines *)
Lemma as_file_app a b : as_file (a ++ b) = as_file a ++ as_file b.
Proof. unfold as_file. rewrite map_app, concat_app. reflexivity. Qed.
Lemma first_newline (a b : text) c d : ~ In newline a -> ~ In newline c -> a ++ newline :: b = c ++ newline :: d -> a = c /\ b = d.
Proof.
  revert c. induction a as [|x a IH]; intros [|y c] Ha Hc H; cbn in H; inversion H; subst.
  - split; reflexivity.
  - exfalso. apply Hc. left. reflexivity.
  - exfalso. apply Ha. left. reflexivity.
  - destruct (IH c) as [-> ->]; auto; intros K; [apply Ha|apply Hc]; right; assumption.
Qed.
Lemma has_line_as_file ls l : Forall (fun l => ~ In newline l) ls -> (has_line (as_file ls) l <-> In l ls).
Proof.
  intros Hls. split.
  - intros [Hl H]. revert Hls H. induction ls as [|m ls IH]; intros Hls (b & a & E & Hb).
    + destruct b; [destruct l|]; discriminate.
    + inversion Hls; subst. unfold as_file in E. cbn [map List.concat] in E. rewrite <- app_assoc in E. cbn [app] in E. change nl with newline in E.
      destruct Hb as [->|[b' ->]].
      * cbn [app] in E. apply first_newline in E; auto. left. apply E.
      * right. apply IH; [assumption|]. 
        assert (K : exists b2, as_file ls = b2 ++ l ++ newline :: a /\ (b2 = [] \/ exists b3, b2 = b3 ++ [newline])).
        { clear IH Hls H2. revert b' E H1. induction m as [|x m IHm]; intros b' E H1.
          - destruct b' as [|y b'].
            + cbn in E. inversion E. exists []. split; [exact H0|left; reflexivity].
            + cbn in E. inversion E; subst y. exists (b' ++ [newline]). split; [assumption|right; eexists; reflexivity].
          - destruct b' as [|y b']; cbn in E; inversion E; subst.
            + exfalso. apply H1. left. reflexivity.
            + apply (IHm b'); [assumption|]. intros K. apply H1. right. assumption. }
        destruct K as (b2 & K1 & K2). exists b2, a. auto.
  - intros H. split; [rewrite Forall_forall in Hls; apply Hls; assumption|]. apply in_split in H. destruct H as (l1 & l2 & ->).
    exists (as_file l1), (as_file l2). split.
    + rewrite as_file_app. unfold as_file at 2. cbn [map List.concat]. rewrite <- app_assoc. reflexivity.
    + destruct l1 as [|x l1] using rev_ind; [left; reflexivity|]. right. rewrite as_file_app.
      exists (as_file l1 ++ x). unfold as_file. cbn. rewrite app_nil_r, <- app_assoc. reflexivity.
Qed.

Definition line_of (p : text * bool) : text := value_is (fst p) (snd p).
Lemma value_is_char nm b : nm ++ str "=" ++ [value_char b] = value_is nm b.
Proof. unfold value_is. destruct b; reflexivity. Qed.
Lemma named_values_some names : forall values, List.length names = List.length values -> named_values names values = Some (map line_of (combine names values)).
Proof.
  induction names as [|nm names IH]; intros [|b values] H; try discriminate; [reflexivity|]. cbn [named_values combine map].
  rewrite IH by (cbn in H; lia). cbn [bind]. rewrite value_is_char. reflexivity.
Qed.
Lemma fixed_values_some names : forall values, List.length names = List.length values -> fixed_values names values = Some (map line_of (combine names values)).
Proof.
  induction names as [|nm names IH]; intros [|b values] H; try discriminate; [reflexivity|]. cbn [fixed_values combine map].
  rewrite IH by (cbn in H; lia). cbn [bind]. rewrite value_is_char. reflexivity.
Qed.
Lemma value_lines_file names : forall values, List.length names = List.length values -> value_lines names values = Some (as_file (map line_of (combine names values))).
Proof.
  induction names as [|nm names IH]; intros [|b values] H; try discriminate; [reflexivity|]. cbn [value_lines combine map].
  rewrite IH by (cbn in H; lia). cbn [bind]. unfold as_file at 2. cbn [map List.concat]. unfold value_line, line_of, value_is. cbn [fst snd].
  f_equal. rewrite <- !app_assoc. destruct b; reflexivity.
Qed.

(** ** The solution file *)
Lemma show_digits_line fuel : forall z, 0 <= z -> ~ In newline (show_digits fuel z).
Proof.
  assert (Hd : forall z, 0 <= z < 10 -> digit_char z <> newline).
  { intros z Hz. assert (z = 0 \/ z = 1 \/ z = 2 \/ z = 3 \/ z = 4 \/ z = 5 \/ z = 6 \/ z = 7 \/ z = 8 \/ z = 9) as K by lia.
    repeat (destruct K as [->|K]; [discriminate|]). subst. discriminate. }
  induction fuel as [|fuel IH]; intros z Hz; cbn [show_digits]; [intros []|].
  destruct (Z.ltb_spec z 10).
  - intros [H'|[]]. revert H'. apply Hd. lia.
  - intros H'. apply in_app_or in H'. destruct H' as [H'|[H'|[]]].
    + revert H'. apply IH. apply Z.div_pos; lia.
    + revert H'. apply Hd. apply Z.mod_pos_bound. lia.
Qed.
Lemma show_int_line z : ~ In newline (show_int z).
Proof.
  unfold show_int. destruct (Z.ltb_spec z 0).
  - intros [H'|H']; [discriminate|]. revert H'. apply show_digits_line. lia.
  - apply show_digits_line. assumption.
Qed.

Lemma comment_str (s : string) t : ~ In newline (str s) -> ~ In newline t -> comment_line (ascii_of_nat 92 :: str s ++ t).
Proof.
  intros Hs Ht. split.
  - intros [K|K]; [discriminate|]. apply in_app_or in K. tauto.
  - exists [], (str s ++ t). split; [reflexivity|constructor].
Qed.
Ltac no_newline := let K := fresh in intros K; repeat first [ discriminate K | destruct K as [K|K] | destruct K ].
Lemma not_in_app (a b : text) : ~ In newline a -> ~ In newline b -> ~ In newline (a ++ b).
Proof. intros Ha Hb K. apply in_app_or in K. tauto. Qed.
Ltac line_ok := repeat (apply not_in_app); try apply show_int_line; try (solve [vm_compute; no_newline]); auto.

Section File.
Variables (end_time : text) (method duration loops : sresult -> text) (show_f show_value : option Z -> text).
Hypothesis He : ~ In newline end_time.
Hypothesis Hm : one_line method.
Hypothesis Hd : one_line duration.
Hypothesis Hlo : one_line loops.
Hypothesis Hsf : one_line show_f.
Hypothesis Hsv : one_line show_value.

Lemma comment_slash l : (exists t, l = ascii_of_nat 92 :: t) -> ~ In newline l -> comment_line l.
Proof. intros [t ->] H. split; [assumption|]. exists [], t. split; [reflexivity|constructor]. Qed.
Lemma concat_line (l : list text) : Forall (fun t => ~ In newline t) l -> ~ In newline (List.concat l).
Proof. induction 1; cbn; [intros []|]. apply not_in_app; assumption. Qed.
Lemma before_run_comments pb : Forall comment_line (before_run pb).
Proof.
  unfold before_run, resume_problem. destruct (count_types _ 0 0 0) as [[a b] c]. unfold slashes.
  repeat constructor; try (apply comment_slash; [eexists; reflexivity|]); line_ok.
  all: try (destruct (p_type pb); line_ok).
  all: try (destruct (o_qelements (p_objective pb)); line_ok).
Qed.

(** The lines of a solution file. *)
Definition found_head (pb : problem) (r : sresult) (v : option Z) : list text :=
  (before_run pb ++ [ str "\ solver finishes: " ++ end_time ]) ++ [ str "\ Solution found: " ++ show_f v ] ++
  [ str "\ solver................: " ++ method r;
    str "\ constraints...........: " ++ show_int (Z.of_nat (sr_constraints r));
    str "\ variables.............: " ++ show_int (Z.of_nat (sr_variables r));
    str "\ duration..............: " ++ duration r;
    str "\ loop..................: " ++ loops r;
    str "\ status................: solution found" ] ++
  [ str "\ value.................: " ++ show_f v;
    str "\ other value...........: " ++ List.concat (map (fun s => show_value (snd s) ++ str " ") (sr_solutions r));
    str "\ variables.............: " ].
Lemma found_head_comments pb r v : Forall comment_line (found_head pb r v).
Proof.
  unfold found_head. rewrite <- app_assoc. apply Forall_app. split; [apply before_run_comments|].
  repeat constructor; (apply comment_slash; [eexists; reflexivity|]); line_ok.
  all: apply concat_line, Forall_map, Forall_forall; intros s _; apply not_in_app; [apply Hsv|vm_compute; no_newline].
Qed.
Definition values_of (r : sresult) (x : list bool) : list text :=
  map line_of (combine (a_names (sr_affected r)) (a_values (sr_affected r))) ++ map line_of (combine (sr_names r) x).
Lemma solution_file_lines pb r x v : sr_status r = st_success -> sr_solutions r = [(x, v)] ->
  List.length x = List.length (sr_names r) -> List.length (a_names (sr_affected r)) = List.length (a_values (sr_affected r)) ->
  solution_file end_time method duration loops show_f show_value pb r = Ok (as_file (found_head pb r v ++ values_of r x)).
Proof.
  intros Hs Hx Hl Ha. unfold solution_file, resume_result, last_solution. rewrite Hs, Hx. cbn [map List.last].
  rewrite fixed_values_some, named_values_some by congruence. cbn [of_opt obind].
  unfold found_head, values_of. rewrite Hx. rewrite <- !app_assoc. reflexivity.
Qed.
Lemma write_found pb r x v : sr_status r = st_success -> sr_solutions r = [(x, v)] ->
  List.length x = List.length (sr_names r) -> List.length (a_names (sr_affected r)) = List.length (a_values (sr_affected r)) ->
  write_result (found_head pb r v) (to_result r) = Ok (as_file (found_head pb r v ++ values_of r x)).
Proof.
  intros Hs Hx Hl Ha. unfold write_result, r_last, to_result. rewrite Hs, Hx. cbn [r_status r_affected r_names r_solutions map List.last sl_variables fst].
  rewrite !value_lines_file by congruence. cbn [of_opt obind]. unfold values_of. rewrite !as_file_app. reflexivity.
Qed.
(** Without success, the file says nothing of a solution. *)
Definition status_line : text := str "\ status................: solution found".
Lemma not_found_file pb r out : sr_status r <> st_success ->
  solution_file end_time method duration loops show_f show_value pb r = Ok out -> ~ has_line out status_line.
Proof.
  intros Hs H K. unfold solution_file in H.
  assert (E : out = as_file ((before_run pb ++ [str "\ solver finishes: " ++ end_time]) ++ [str "\ Solution not found. Missing constraints: " ++ show_int (sr_remaining r)])).
  { destruct (sr_status r); congruence. }
  clear H. subst out. apply has_line_as_file in K.
  - rewrite <- app_assoc in K. apply in_app_or in K. destruct K as [K|K].
    + unfold before_run, resume_problem in K. destruct (count_types _ 0 0 0) as [[a b] c]. cbn [app In] in K.
      destruct K as [K|[K|[K|[K|[K|[]]]]]]; discriminate K.
    + cbn [app In] in K. destruct K as [K|[K|[]]]; discriminate K.
  - rewrite !Forall_app. split; [split|].
    + eapply Forall_impl; [|apply before_run_comments]. intros l HH. apply HH.
    + repeat constructor. line_ok.
    + repeat constructor. line_ok.
Qed.

(** What a result says, as a result of Validate_model. *)
Lemma reports_describes pb r x v X : NoDup (v_names (p_vars pb)) -> sr_status r = st_success -> sr_solutions r = [(x, v)] -> List.length x = List.length (sr_names r) ->
  names_all r pb -> reports r x X pb -> proper_result (to_result r) /\ describes (to_result r) pb X.
Proof.
  intros Hnd Hs Hx Hl [Hp Ha] Hr. split.
  - split; [exact Hs|]. split; [|split; [exact Ha|]].
    + unfold r_last, to_result. rewrite Hx. eexists. split; [reflexivity|]. exact Hl.
    + cbn. eapply Permutation_NoDup; [symmetry; exact Hp|assumption].
  - split; [apply Permutation_length in Hp; rewrite app_length in Hp; symmetry; exact Hp|].
    intros i nm Hc. destruct (Hr i nm Hc) as [H1 H2].
    assert (Hin : In nm (sr_names r ++ a_names (sr_affected r))) by (eapply Permutation_in; [symmetry; exact Hp|eapply nth_error_In; exact Hc]).
    apply in_app_or in Hin. destruct Hin as [Hin|Hin]; apply In_nth_error in Hin; destruct Hin as [k Hk].
    + left. unfold r_last, to_result. rewrite Hx. eexists _, k. split; [reflexivity|]. cbn. auto.
    + right. exists k. split; [exact Hk|].
      destruct (nth_error (a_values (sr_affected r)) k) as [b|] eqn:Eb.
      * rewrite (H2 k b Hk Eb). exact Eb.
      * exfalso. apply nth_error_None in Eb. assert (k < List.length (a_names (sr_affected r)))%nat by (apply nth_error_Some; congruence). lia.
Qed.
End File.

(** ** What the file says, name by name *)
Lemma first_char c (a b : text) a' b' : ~ In c a -> ~ In c a' -> a ++ c :: b = a' ++ c :: b' -> a = a' /\ b = b'.
Proof.
  revert a'. induction a as [|x a IH]; intros [|y a'] Ha Hc H; cbn in H; inversion H; subst.
  - split; reflexivity.
  - exfalso. apply Hc. left. reflexivity.
  - exfalso. apply Ha. left. reflexivity.
  - destruct (IH a') as [-> ->]; auto; intros K; [apply Ha|apply Hc]; right; assumption.
Qed.
Lemma value_is_inj nm nm' b b' : ~ In (ascii_of_nat 61) nm -> ~ In (ascii_of_nat 61) nm' -> value_is nm b = value_is nm' b' -> nm = nm' /\ b = b'.
Proof.
  intros H1 H2 H. unfold value_is in H. change (str "=") with [ascii_of_nat 61] in H. cbn [app] in H.
  apply first_char in H; auto. destruct H as [-> H]. split; [reflexivity|]. destruct b, b'; try reflexivity; discriminate.
Qed.
Lemma value_is_line nm b : ~ In newline nm -> ~ In newline (value_is nm b).
Proof. intros H. unfold value_is. apply not_in_app; [assumption|]. destruct b; vm_compute; no_newline. Qed.
Lemma value_is_comment nm b : ~ In (ascii_of_nat 92) nm -> ~ comment_line (value_is nm b).
Proof.
  intros H [_ (u & t & E & _)]. assert (K : In (ascii_of_nat 92) (value_is nm b)) by (rewrite E; apply in_or_app; right; left; reflexivity).
  unfold value_is in K. apply in_app_or in K. destruct K as [K|K]; [contradiction|]. destruct b; vm_compute in K; intuition discriminate.
Qed.
Lemma in_combine_nth {A B} (l : list A) : forall (m : list B) a b, In (a, b) (combine l m) -> exists k, nth_error l k = Some a /\ nth_error m k = Some b.
Proof.
  induction l as [|x l IH]; intros [|y m] a b H; cbn in H; try destruct H as [].
  - inversion H; subst. exists 0%nat. auto.
  - destruct (IH m a b H) as [k K]. exists (S k). exact K.
Qed.
Lemma nth_in_combine {A B} (l : list A) : forall (m : list B) k a b, nth_error l k = Some a -> nth_error m k = Some b -> In (a, b) (combine l m).
Proof.
  induction l as [|x l IH]; intros [|y m] [|k] a b H1 H2; cbn in *; try discriminate.
  - left. congruence.
  - right. eapply IH; eassumption.
Qed.
Definition plain_name (nm : text) : Prop := ~ In newline nm /\ ~ In (ascii_of_nat 61) nm /\ ~ In (ascii_of_nat 92) nm.
Lemma name_ok_plain {D} (dn : dops D) nm : name_ok dn nm -> plain_name nm.
Proof.
  intros (_ & H & _). rewrite forallb_forall in H. unfold plain_name. split; [|split]; intros K; specialize (H _ K); vm_compute in H; discriminate.
Qed.
Lemma plain_writable nm : plain_name nm -> writable_name nm.
Proof.
  intros (H1 & H2 & H3). split; [assumption|]. split; [assumption|]. intros (b & r & -> & _). apply H3. apply in_or_app. right. left. reflexivity.
Qed.

Lemma file_says head pb r x X out : Forall comment_line head -> Forall plain_name (v_names (p_vars pb)) ->
  List.length x = List.length (sr_names r) -> names_all r pb -> reports r x X pb ->
  out = as_file (head ++ values_of r x) ->
  (forall i nm b, called pb i nm -> (has_line out (value_is nm b) <-> X i = b)) /\
  (forall l, has_line out l -> In l head \/ exists i nm, called pb i nm /\ l = value_is nm (X i)).
Proof.
  intros Hh Hp Hl [Hperm Ha] Hr ->. rewrite Forall_forall in Hp.
  assert (Hname : forall nm, In nm (sr_names r ++ a_names (sr_affected r)) -> plain_name nm).
  { intros nm H. apply Hp. eapply Permutation_in; eassumption. }
  assert (Hcall : forall nm, In nm (sr_names r ++ a_names (sr_affected r)) -> exists i, called pb i nm).
  { intros nm H. apply (Permutation_in _ Hperm) in H. apply In_nth_error in H. exact H. }
  assert (Hval : forall l, In l (values_of r x) <-> exists i nm, called pb i nm /\ l = value_is nm (X i)).
  { intros l. unfold values_of. rewrite in_app_iff, !in_map_iff. split.
    - intros [([nm b] & <- & H)|([nm b] & <- & H)].
      + destruct (in_combine_nth _ _ _ _ H) as (k & K1 & K2). destruct (Hcall nm) as [i Hi]; [apply in_or_app; right; eapply nth_error_In; eassumption|].
        exists i, nm. split; [assumption|]. destruct (Hr i nm Hi) as [_ H2]. rewrite (H2 k b K1 K2). reflexivity.
      + destruct (in_combine_nth _ _ _ _ H) as (k & K1 & K2). destruct (Hcall nm) as [i Hi]; [apply in_or_app; left; eapply nth_error_In; eassumption|].
        exists i, nm. split; [assumption|]. destruct (Hr i nm Hi) as [H1 _]. specialize (H1 k K1). rewrite K2 in H1. inversion H1. reflexivity.
    - intros (i & nm & Hi & ->). destruct (Hr i nm Hi) as [H1 H2].
      assert (Hin : In nm (sr_names r ++ a_names (sr_affected r))) by (eapply Permutation_in; [symmetry; exact Hperm|eapply nth_error_In; exact Hi]).
      apply in_app_or in Hin. destruct Hin as [Hin|Hin]; apply In_nth_error in Hin; destruct Hin as [k Hk].
      + right. exists (nm, X i). split; [reflexivity|]. eapply nth_in_combine; eauto.
      + left. exists (nm, X i). split; [reflexivity|]. destruct (nth_error (a_values (sr_affected r)) k) as [b|] eqn:Eb.
        * rewrite (H2 k b Hk Eb). eapply nth_in_combine; eauto.
        * exfalso. apply nth_error_None in Eb. assert (k < List.length (a_names (sr_affected r)))%nat by (apply nth_error_Some; congruence). lia. }
  assert (Hlines : Forall (fun l => ~ In newline l) (head ++ values_of r x)).
  { apply Forall_app. split; [eapply Forall_impl; [|exact Hh]; intros l HH; apply HH|]. apply Forall_forall. intros l H.
    apply Hval in H. destruct H as (i & nm & Hi & ->). apply value_is_line. apply (Hp nm). eapply nth_error_In. exact Hi. }
  split.
  - intros i nm b Hi. assert (Pn : plain_name nm) by (apply Hp; eapply nth_error_In; exact Hi).
    rewrite has_line_as_file by assumption. rewrite in_app_iff, Hval. split.
    + intros [H|(i' & nm' & Hi' & E)].
      * exfalso. rewrite Forall_forall in Hh. apply Hh in H. revert H. apply value_is_comment. apply Pn.
      * apply value_is_inj in E; [|apply Pn|apply Hp; eapply nth_error_In; exact Hi']. destruct E as [-> ->].
        destruct (Hr i nm' Hi) as [H1 H2]. destruct (Hr i' nm' Hi') as [H1' H2'].
        assert (Hin : In nm' (sr_names r ++ a_names (sr_affected r))) by (eapply Permutation_in; [symmetry; exact Hperm|eapply nth_error_In; exact Hi]).
        apply in_app_or in Hin. destruct Hin as [Hin|Hin]; apply In_nth_error in Hin; destruct Hin as [k Hk].
        -- specialize (H1 k Hk). specialize (H1' k Hk). congruence.
        -- destruct (nth_error (a_values (sr_affected r)) k) as [b|] eqn:Eb; [rewrite (H2 k b Hk Eb); symmetry; eapply H2'; eassumption|].
           exfalso. apply nth_error_None in Eb. assert (k < List.length (a_names (sr_affected r)))%nat by (apply nth_error_Some; congruence). lia.
    + intros <-. right. exists i, nm. auto.
  - intros l H. rewrite has_line_as_file in H by assumption. apply in_app_or in H. destruct H as [H|H]; [auto|]. right. apply Hval. assumption.
Qed.

(** ** main() with one file *)
Section One.
Variables (end_time : text) (method duration loops : sresult -> text) (show_f show_value : option Z -> text).
Hypothesis He : ~ In newline end_time.
Hypothesis Hm : one_line method.
Hypothesis Hd : one_line duration.
Hypothesis Hlo : one_line loops.
Hypothesis Hsf : one_line show_f.
Hypothesis Hsv : one_line show_value.
Let sol_file := solution_file end_time method duration loops show_f show_value.

Context {F G : Type} (fo : fops F) (ro : rops G)
        (std_sort : forall A : Type, (A -> A -> bool) -> list A -> list A) (ddiv : Z -> Z -> Z).
Hypothesis Hperm : permutes std_sort.

Lemma file_reads_back random_optimizer raw_costs norm_costs pfuel fuel random buffered po pa after (g : G) pb r :
  Preprocess_spec.well_formed pb -> (exists x0, solution x0 pb) -> small_sums pb -> v_names (p_vars pb) <> [] -> Forall writable_name (v_names (p_vars pb)) ->
  (random = true -> forall q, preprocess pfuel pb = Ok (Some q) -> p_problem_type q <> inequalities_01 /\ p_problem_type q <> inequalities_101) ->
  user_solve fo ro std_sort ddiv random_optimizer raw_costs norm_costs pfuel fuel pp_all random buffered po pa after g pb = Finished (Ok r) ->
  sr_status r = st_success ->
  exists out r', sol_file pb r = Ok out /\ read_result out = Ok r' /\ is_valid_solution pb r' = Ok true /\
    (linear_objective pb -> exists v, compute_solution pb r' = Ok v /\ exists before after, out = before ++ str "\ Solution found: " ++ show_f (Some v) ++ [newline] ++ after).
Proof.
  intros Hwf Hx0 Hsmall Hne Hw Hrnd H Hs.
  destruct (user_solve_answers fo ro std_sort ddiv Hperm _ _ _ _ _ _ _ _ _ _ _ _ _ Hwf Hx0 (small_fits pb Hsmall) Hrnd H Hs) as (x & v & H1 & Hl & Hna & [X HX] & Hall).
  destruct (Hall X HX) as (Hf & _ & Hv).
  destruct (reports_describes pb r x v X (proj1 (proj2 Hwf)) Hs H1 Hl Hna HX) as [Hpr Hde].
  assert (Hwn : Forall writable_name (sr_names r) /\ Forall writable_name (a_names (sr_affected r))).
  { apply Forall_app. eapply Permutation_Forall; [symmetry; apply (proj1 Hna)|assumption]. }
  pose proof (found_head_comments end_time method duration loops show_f show_value He Hm Hd Hlo Hsf Hsv pb r v) as Hhc.
  destruct (round_trip (found_head end_time method duration loops show_f show_value pb r v) (to_result r) Hhc Hpr (proj2 Hwn) (proj1 Hwn)) as (out & s & Wo & Ws & Wr).
  destruct (read_describes (to_result r) s pb X Hpr Ws Hde) as [Hpr' Hde'].
  rewrite (write_found end_time method duration loops show_f show_value pb r x v Hs H1 Hl (proj2 Hna)) in Wo. injection Wo as Wo.
  eexists out, _. split; [unfold sol_file; rewrite (solution_file_lines end_time method duration loops show_f show_value pb r x v Hs H1 Hl (proj2 Hna)), Wo; reflexivity|].
  split; [exact Wr|]. split.
  - destruct (is_valid_solution_exact pb _ X Hwf Hsmall Hne Hpr' Hde') as (b & -> & Hb). f_equal. apply Hb. assumption.
  - intros Hlin. rewrite (compute_solution_exact pb _ X Hwf Hne Hpr' Hde'). eexists. split; [reflexivity|]. rewrite (Hv Hlin) in Wo.
    exists (as_file (before_run pb ++ [str "\ solver finishes: " ++ end_time])). eexists. rewrite <- Wo. unfold found_head.
    rewrite !as_file_app. unfold as_file at 3. cbn [map List.concat]. change nl with newline. rewrite <- !app_assoc. reflexivity.
Qed.

Context {D : Type} (dn : dops D) (cost : D -> Z).
Variables (fs : text -> option text) (pid : text).

Lemma lin_document ty d X V : by_name (document_names d) X V -> objective_value X (p_objective (to_problem cost (meaning dn ty d))) = objective_at dn cost V d.
Proof.
  intros HV. unfold objective_value, to_problem, meaning, objective_at. cbn [p_objective o_value o_elements o_qelements rw_value rw_objective rw_quadratic map quad_value].
  unfold objective_of. rewrite map_map. cbn [fst snd].
  assert (Hn : forall nm, In nm (firsts (map t_var (var_terms (dc_objective d)))) -> In nm (document_names d)).
  { intros nm H. apply (proj1 (firsts_In _ _)) in H. unfold document_names. apply firsts_In. apply in_or_app. left.
    apply in_map_iff in H. destruct H as (t & <- & Ht). unfold var_terms in Ht. apply in_flat_map in Ht. destruct Ht as (o & Ho & Ht).
    apply in_flat_map. exists o. split; [assumption|]. destruct o; cbn in *; [destruct Ht as [->|[]]; left; reflexivity|destruct Ht]. }
  rewrite Z.add_0_r. f_equal.
  induction (firsts (map t_var (var_terms (dc_objective d)))) as [|nm N IH]; [reflexivity|].
  cbn [map lin_value fold_right o_factor o_var]. rewrite IH by (intros; apply Hn; right; assumption). rewrite HV by (apply Hn; left; reflexivity). reflexivity.
Qed.

Lemma document_answered_by (run : problem -> run_result (outcome sresult)) fuel file t d ty e name out (Q : assignment -> Prop) :
  let pb := to_problem cost (meaning dn ty d) in
  dops_ok dn -> fs file = Some t -> readable t -> ends_plain t -> file_tokens t = document_tokens d -> document_ok dn ty d ->
  (List.length (file_tokens t) <= fuel)%nat ->
  (forall r, run pb = Finished (Ok r) -> sr_status r = st_success ->
     exists x v X, sr_solutions r = [(x, v)] /\ List.length x = List.length (sr_names r) /\ names_all r pb /\ reports r x X pb /\
       feasible X pb /\ Q X /\ v = Some (objective_value X (p_objective pb))) ->
  main_ dn cost run fs pid end_time method duration loops show_f show_value fuel true [file] = Finished e ->
  In (name, out) (en_files e) -> has_line out status_line ->
  exists V, satisfies dn V d /\ (exists X, by_name (document_names d) X V /\ Q X) /\
    (forall nm b, In nm (document_names d) -> (has_line out (value_is nm b) <-> V nm = b)) /\
    (forall l, has_line out l -> comment_line l \/ exists nm, In nm (document_names d) /\ l = value_is nm (V nm)) /\
    has_line out (str "\ Solution found: " ++ show_f (Some (objective_at dn cost V d))).
Proof.
  intros pb Hdn Hfs R1 R2 R3 Hok Hfuel Hans H Hin Hst.
  assert (Hmk : make_problem dn fuel t = P_ok (meaning dn ty d)) by (apply make_problem_document; assumption).
  assert (Hwf : Preprocess_spec.well_formed pb) by (apply to_problem_wf; eapply make_problem_well_formed; eassumption).
  destruct (document_names_ok dn ty d Hok) as [Hnok Hnd].
  assert (Hpn : Forall plain_name (v_names (p_vars pb))) by (eapply Forall_impl; [|exact Hnok]; intros nm; apply name_ok_plain).
  cbn [main_ negb] in H. unfold main_one, read_file in H. rewrite Hfs, Hmk in H. fold pb in H.
  destruct (run pb) as [[r| |]| |] eqn:Hrun; try discriminate.
  2: { inversion H; subst e. cbn [en_files] in Hin. destruct Hin as [Hin|[]]. inversion Hin; subst name out. exfalso.
       apply has_line_as_file in Hst.
       - unfold before_run, resume_problem in Hst. destruct (count_types _ 0 0 0) as [[a b] c]. cbn [app In] in Hst.
         destruct Hst as [K|[K|[K|[K|[K|[]]]]]]; discriminate K.
       - eapply Forall_impl; [|apply before_run_comments]. intros l HH. apply HH. }
  destruct (solution_file end_time method duration loops show_f show_value pb r) as [out'| |] eqn:Hso; try discriminate.
  inversion H; subst e. cbn [en_files] in Hin. destruct Hin as [Hin|[]]. inversion Hin; subst name out'. clear H Hin.
  assert (Hs : sr_status r = st_success).
  { destruct (sr_status r) eqn:E; try reflexivity; exfalso; revert Hst; eapply (not_found_file end_time method duration loops show_f show_value He); try eassumption; congruence. }
  destruct (Hans r eq_refl Hs) as (x & v & X & H1 & Hl & Hna & HX & Hf & Hb & Hv).
  rewrite (solution_file_lines end_time method duration loops show_f show_value pb r x v Hs H1 Hl (proj2 Hna)) in Hso. injection Hso as Hso.
  pose proof (found_head_comments end_time method duration loops show_f show_value He Hm Hd Hlo Hsf Hsv pb r v) as Hhc.
  destruct (file_says _ pb r x X out Hhc Hpn Hl Hna HX (eq_sym Hso)) as [S1 S2].
  pose (V := fun nm => X (position nm (document_names d))).
  assert (HXV : by_name (document_names d) X V) by (intros nm Hnm; reflexivity).
  assert (Hcall : forall nm, In nm (document_names d) -> called pb (position nm (document_names d)) nm) by (intros nm Hnm; apply position_nth; assumption).
  exists V. split; [|split; [|split; [|split]]].
  - apply (feasible_satisfies dn cost ty d X V HXV). assumption.
  - exists X. split; [exact HXV|exact Hb].
  - intros nm b Hnm. apply S1. apply Hcall. assumption.
  - intros l Hll. destruct (S2 l Hll) as [K|(i & nm & Hi & ->)].
    + left. rewrite Forall_forall in Hhc. apply Hhc. assumption.
    + right. assert (Hnm : In nm (document_names d)) by (eapply nth_error_In; exact Hi). exists nm. split; [assumption|]. unfold V.
      assert (position nm (document_names d) = i) as ->; [|reflexivity].
      apply (proj1 (NoDup_nth_error _) Hnd); [apply position_lt; assumption|]. rewrite position_nth by assumption. symmetry. exact Hi.
  - rewrite Hv in Hso. unfold pb in Hso at 2. rewrite (lin_document ty d X V HXV) in Hso.
    rewrite <- Hso. apply has_line_as_file.
    + apply Forall_app. split; [eapply Forall_impl; [|apply found_head_comments; assumption]; intros l HH; apply HH|].
      apply Forall_forall. intros l Hll. unfold values_of in Hll. apply in_app_or in Hll.
      destruct Hll as [Hll|Hll]; apply in_map_iff in Hll; destruct Hll as ([nm b] & <- & Hc); apply value_is_line;
        apply in_combine_l in Hc; rewrite Forall_forall in Hpn; apply Hpn; (eapply Permutation_in; [exact (proj1 Hna)|]); apply in_or_app; auto.
    + apply in_or_app. left. unfold found_head. apply in_or_app. right. left. reflexivity.
Qed.
Lemma document_answered (run : problem -> run_result (outcome sresult)) fuel file t d ty e name out (B : Prop) :
  let pb := to_problem cost (meaning dn ty d) in
  dops_ok dn -> fs file = Some t -> readable t -> ends_plain t -> file_tokens t = document_tokens d -> document_ok dn ty d ->
  (List.length (file_tokens t) <= fuel)%nat ->
  (forall r, run pb = Finished (Ok r) -> sr_status r = st_success ->
     exists x v X, sr_solutions r = [(x, v)] /\ List.length x = List.length (sr_names r) /\ names_all r pb /\ reports r x X pb /\
       feasible X pb /\ (B -> in_bounds X pb) /\ v = Some (objective_value X (p_objective pb))) ->
  main_ dn cost run fs pid end_time method duration loops show_f show_value fuel true [file] = Finished e ->
  In (name, out) (en_files e) -> has_line out status_line ->
  exists V, satisfies dn V d /\ (B -> within_bounds dn V d) /\
    (forall nm b, In nm (document_names d) -> (has_line out (value_is nm b) <-> V nm = b)) /\
    (forall l, has_line out l -> comment_line l \/ exists nm, In nm (document_names d) /\ l = value_is nm (V nm)) /\
    has_line out (str "\ Solution found: " ++ show_f (Some (objective_at dn cost V d))).
Proof.
  intros pb Hdn Hfs R1 R2 R3 Hok Hfuel Hans H Hin Hst.
  destruct (document_answered_by run fuel file t d ty e name out (fun X => B -> in_bounds X pb) Hdn Hfs R1 R2 R3 Hok Hfuel Hans H Hin Hst)
    as (V & V1 & (X & HXV & Hb) & V2). exists V. split; [exact V1|]. split; [|exact V2].
  intros Hz. apply (bounds_within dn cost ty d X V HXV). apply Hb. exact Hz.
Qed.
Lemma one_document random_optimizer raw_costs norm_costs pfuel sfuel random buffered po pa after (g : G) fuel file t d ty e name out :
  let run := user_solve fo ro std_sort ddiv random_optimizer raw_costs norm_costs pfuel sfuel pp_all random buffered po pa after g in
  dops_ok dn -> fs file = Some t -> readable t -> ends_plain t -> file_tokens t = document_tokens d -> document_ok dn ty d ->
  (List.length (file_tokens t) <= fuel)%nat -> small_csts dn d -> (exists V, satisfies dn V d /\ within_bounds dn V d) ->
  (random = true -> forall q, preprocess pfuel (to_problem cost (meaning dn ty d)) = Ok (Some q) -> p_problem_type q <> inequalities_01 /\ p_problem_type q <> inequalities_101) ->
  main_ dn cost run fs pid end_time method duration loops show_f show_value fuel true [file] = Finished e ->
  In (name, out) (en_files e) -> has_line out status_line ->
  exists V, satisfies dn V d /\ (zero_one_bounds dn d -> within_bounds dn V d) /\
    (forall nm b, In nm (document_names d) -> (has_line out (value_is nm b) <-> V nm = b)) /\
    (forall l, has_line out l -> comment_line l \/ exists nm, In nm (document_names d) /\ l = value_is nm (V nm)) /\
    has_line out (str "\ Solution found: " ++ show_f (Some (objective_at dn cost V d))).
Proof.
  intros run Hdn Hfs R1 R2 R3 Hok Hfuel Hsm HV0 Hrnd.
  apply (document_answered run fuel file t d ty e name out (zero_one_bounds dn d)); try assumption.
  set (pb := to_problem cost (meaning dn ty d)) in *. intros r Hrun Hs.
  assert (Hmk : make_problem dn fuel t = P_ok (meaning dn ty d)) by (apply make_problem_document; assumption).
  assert (Hwf : Preprocess_spec.well_formed pb) by (apply to_problem_wf; eapply make_problem_well_formed; eassumption).
  set (val := fun (V : valuation) (i : nat) => match nth_error (document_names d) i with Some nm => V nm | None => false end).
  assert (Hval : forall V, by_name (document_names d) (val V) V).
  { intros V nm Hnm. unfold val. rewrite position_nth by assumption. reflexivity. }
  assert (Hx0 : exists x0, solution x0 pb).
  { destruct HV0 as (V & V1 & V2). exists (val V). split; [apply (feasible_satisfies dn cost ty d (val V) V (Hval V)); assumption|apply (bounds_within dn cost ty d (val V) V (Hval V)); assumption]. }
  destruct (user_solve_answers fo ro std_sort ddiv Hperm _ _ _ _ _ _ _ _ _ _ _ _ _ Hwf Hx0 (small_fits pb (small_sums_document dn cost ty d Hsm)) Hrnd Hrun Hs)
    as (x & v & H1 & Hl & Hna & [X HX] & Hall).
  destruct (Hall X HX) as (Hf & Hb & Hv). exists x, v, X. do 5 (split; [assumption|]).
  split; [intros Hz; apply Hb; apply zero_one_binary; assumption|]. apply Hv. reflexivity.
Qed.

(** Without preprocessing. *)
Lemma plain_document random_optimizer raw_costs norm_costs pfuel sfuel random buffered po pa after (g : G) fuel file t d ty e name out :
  let run := user_solve fo ro std_sort ddiv random_optimizer raw_costs norm_costs pfuel sfuel pp_none random buffered po pa after g in
  dops_ok dn -> fs file = Some t -> readable t -> ends_plain t -> file_tokens t = document_tokens d -> document_ok dn ty d ->
  (List.length (file_tokens t) <= fuel)%nat -> small_csts dn d -> dc_constraints d <> [] ->
  (random = true -> which_problem_type (to_problem cost (meaning dn ty d)) <> inequalities_01 /\ which_problem_type (to_problem cost (meaning dn ty d)) <> inequalities_101) ->
  main_ dn cost run fs pid end_time method duration loops show_f show_value fuel true [file] = Finished e ->
  In (name, out) (en_files e) -> has_line out status_line ->
  exists V, satisfies dn V d /\
    (forall nm b, In nm (document_names d) -> (has_line out (value_is nm b) <-> V nm = b)) /\
    (forall l, has_line out l -> comment_line l \/ exists nm, In nm (document_names d) /\ l = value_is nm (V nm)) /\
    has_line out (str "\ Solution found: " ++ show_f (Some (objective_at dn cost V d))).
Proof.
  intros run Hdn Hfs R1 R2 R3 Hok Hfuel Hsm Hne Hrnd H Hin Hst.
  cut (exists V, satisfies dn V d /\ (False -> within_bounds dn V d) /\
    (forall nm b, In nm (document_names d) -> (has_line out (value_is nm b) <-> V nm = b)) /\
    (forall l, has_line out l -> comment_line l \/ exists nm, In nm (document_names d) /\ l = value_is nm (V nm)) /\
    has_line out (str "\ Solution found: " ++ show_f (Some (objective_at dn cost V d)))).
  { intros (V & V1 & _ & V2). exists V. auto. }
  revert H Hin Hst. apply (document_answered run fuel file t d ty e name out False); try assumption.
  set (pb := to_problem cost (meaning dn ty d)) in *. intros r Hrun Hs.
  assert (Hmk : make_problem dn fuel t = P_ok (meaning dn ty d)) by (apply make_problem_document; assumption).
  assert (Hwf : Preprocess_spec.well_formed pb) by (apply to_problem_wf; eapply make_problem_well_formed; eassumption).
  assert (Hwr : well_formed_rows pb) by (destruct Hwf as (W1 & W2 & W3 & W4 & _); exact (conj W1 (conj W2 (conj W3 W4)))).
  destruct (dc_constraints d) as [|k ks] eqn:Ek; [contradiction|].
  assert (Hk : In k (dc_constraints d)) by (rewrite Ek; left; reflexivity).
  destruct (constraints_of_has dn (document_names d) (dc_constraints d) k Hk) as [id Hid].
  assert (Hac : all_constraints pb <> []).
  { apply (problem_constraints dn cost ty d) in Hid. intros E. change (to_problem cost (meaning dn ty d)) with pb in Hid. rewrite E in Hid. destruct Hid. }
  assert (Hvv : v_values (p_vars pb) <> []).
  { assert (K : In (t_var (k_first k)) (document_names d)) by (eapply document_terms; [eassumption|left; reflexivity]).
    unfold pb, to_problem, meaning. cbn. intros E. apply map_eq_nil in E. rewrite E in K. destruct K. }
  destruct (plain_solve_answers fo ro std_sort ddiv Hperm random_optimizer raw_costs norm_costs pfuel sfuel random buffered po pa after g pb r Hwr Hac Hvv (small_fits pb (small_sums_document dn cost ty d Hsm)) Hrnd Hrun Hs)
    as (x & Hn & Ha & Hl & Hsol & Hf).
  exists x, (Some (objective_value (as_assignment x) (p_objective pb))), (as_assignment x).
  assert (Hlen : List.length x = List.length (sr_names r)) by (rewrite Hn, Hl; symmetry; apply Hwf).
  split; [assumption|]. split; [assumption|]. split; [split; [rewrite Hn, Ha; cbn; rewrite app_nil_r; reflexivity|rewrite Ha; reflexivity]|].
  split; [|split; [assumption|split; [intros []|reflexivity]]].
  intros i nm Hi. rewrite Hn, Ha. split; [|intros j b Hj; destruct j; discriminate]. intros j Hj.
  assert (j = i) as ->.
  { apply (proj1 (NoDup_nth_error _) (proj1 (proj2 Hwf))); [apply nth_error_Some; congruence|]. unfold called in Hi. congruence. }
  unfold as_assignment. apply nth_error_nth'. rewrite Hlen, Hn. apply nth_error_Some. congruence.
Qed.
End One.

(** ** Messages and results file *)
Section Several.
Context {D : Type} (dn : dops D) (cost : D -> Z) (run : problem -> run_result (outcome sresult)) (fs : text -> option text).
Variables (pid end_time : text) (method duration loops : sresult -> text) (show_f show_value : option Z -> text).
Let several := main_several dn cost run fs duration show_f show_value.

Lemma several_messages fuel files : forall out msgs out' msgs', several fuel files out msgs = Finished (out', msgs') ->
  exists more, msgs' = msgs ++ more /\
    forall m, In m more <-> exists f, In f files /\
      ((m = Cannot_read f /\ unreadable dn fs fuel f) \/ (m = Exception_ f /\ exists p, reads_as dn fs fuel f p /\ run (to_problem cost p) = Finished Throw)).
Proof.
  unfold several. induction files as [|f files IH]; intros out msgs out' msgs' H; cbn [main_several] in H.
  - inversion H; subst. exists []. split; [rewrite app_nil_r; reflexivity|]. intros m. split; [intros []|intros (f & [] & _)].
  - destruct (read_file dn fs fuel f) as [[p|]| | |] eqn:E; try discriminate.
    + assert (R : reads_as dn fs fuel f p).
      { unfold read_file in E. unfold reads_as. destruct (fs f) as [t|]; [|discriminate]. exists t. split; [reflexivity|]. destruct (make_problem dn fuel t); inversion E; reflexivity. }
      assert (NU : ~ unreadable dn fs fuel f).
      { intros [U|(t & s & U1 & U2)]; destruct R as (t' & R1 & R2); congruence. }
      assert (UQ : forall p', reads_as dn fs fuel f p' -> p' = p).
      { intros p' (t' & R1' & R2'). destruct R as (t & R1 & R2). congruence. }
      destruct (run (to_problem cost p)) as [[r| |]| |] eqn:Er; try discriminate.
      * destruct (result_line _ _ _ r) as [l| |]; try discriminate. destruct (IH _ _ _ _ H) as (more & -> & Hm). exists more. split; [reflexivity|].
        intros m. rewrite Hm. split; [intros (f' & Hf' & K); exists f'; split; [right; assumption|assumption]|].
        intros (f' & [<-|Hf'] & K); [|exists f'; auto]. exfalso. destruct K as [[_ K]|(_ & p' & K1 & K2)]; [contradiction|]. rewrite (UQ p' K1) in K2. congruence.
      * destruct (IH _ _ _ _ H) as (more & -> & Hm). exists (Exception_ f :: more). split; [rewrite <- app_assoc; reflexivity|].
        intros m. cbn [In]. rewrite Hm. split.
        -- intros [<-|(f' & Hf' & K)]; [exists f; split; [left; reflexivity|]; right; split; [reflexivity|]; exists p; auto|exists f'; split; [right; assumption|assumption]].
        -- intros (f' & [<-|Hf'] & K); [|right; exists f'; auto]. destruct K as [[_ K]|(-> & _)]; [contradiction|left; reflexivity].
    + assert (U : unreadable dn fs fuel f).
      { unfold read_file in E. destruct (fs f) as [t|] eqn:Et; [|left; assumption]. right. destruct (make_problem dn fuel t) eqn:Em; try discriminate. exists t. eauto. }
      destruct (IH _ _ _ _ H) as (more & -> & Hm). exists (Cannot_read f :: more). split; [rewrite <- app_assoc; reflexivity|].
      intros m. cbn [In]. rewrite Hm. split.
      * intros [<-|(f' & Hf' & K)]; [exists f; split; [left; reflexivity|]; left; auto|exists f'; split; [right; assumption|assumption]].
      * intros (f' & [<-|Hf'] & K); [|right; exists f'; auto]. destruct K as [[-> _]|(_ & p & K1 & _)]; [left; reflexivity|].
        exfalso. destruct K1 as (t & R1 & R2). destruct U as [U|(t' & s & U1 & U2)]; congruence.
Qed.

Hypothesis Hd : one_line duration.
Hypothesis Hsf : one_line show_f.
Hypothesis Hsv : one_line show_value.
Lemma result_line_ok r l : result_line duration show_f show_value r = Ok l -> exists t, l = t ++ [newline] /\ ~ In newline t /\
  (sr_status r = st_success -> exists t' v, t = show_f v ++ str " " ++ t' /\ snd (List.last (sr_solutions r) ([], None)) = v) /\ (sr_status r <> st_success -> t = str "No solution found.").
Proof.
  unfold result_line. destruct (sr_status r) eqn:E; intros H;
    try (inversion H; subst l; exists (str "No solution found."); split; [reflexivity|]; split; [vm_compute; no_newline|]; split; [intros K; discriminate K|intros _; reflexivity]).
  destruct (last_solution r) as [[x v]|] eqn:El; [|discriminate]. inversion H; subst l. clear H.
  exists (show_f v ++ str " " ++ duration r ++ str "s " ++ List.concat (map (fun s => show_value (snd s) ++ str " ") (sr_solutions r))).
  split; [rewrite <- !app_assoc; reflexivity|]. split; [|split].
  - repeat apply not_in_app; auto; try (solve [vm_compute; no_newline]). apply concat_line, Forall_map, Forall_forall. intros s _. apply not_in_app; [apply Hsv|vm_compute; no_newline].
  - intros _. eexists _, v. split; [reflexivity|]. unfold last_solution in El. clear - El. revert El. induction (sr_solutions r) as [|s l IH]; cbn; [discriminate|].
    destruct l as [|s' l]; cbn in *; [intros K; inversion K; reflexivity|exact IH].
  - congruence.
Qed.
Lemma several_lines fuel files : forall out msgs out' msgs', several fuel files out msgs = Finished (out', msgs') ->
  Forall (fun f => ~ In newline f) files ->
  (forall f, In f files -> exists p r, reads_as dn fs fuel f p /\ run (to_problem cost p) = Finished (Ok r)) ->
  exists lines, out' = out ++ as_file lines /\ msgs' = msgs /\ Forall (fun l => ~ In newline l) lines /\
    Forall2 (fun f l => exists p r t, reads_as dn fs fuel f p /\ run (to_problem cost p) = Finished (Ok r) /\ l = f ++ str " " ++ t /\
      (sr_status r = st_success -> exists t' v, t = show_f v ++ str " " ++ t' /\ snd (List.last (sr_solutions r) ([], None)) = v) /\ (sr_status r <> st_success -> t = str "No solution found.")) files lines.
Proof.
  unfold several. induction files as [|f files IH]; intros out msgs out' msgs' H Hn Hall; cbn [main_several] in H.
  - inversion H; subst. exists []. split; [rewrite app_nil_r; reflexivity|]. repeat split; constructor.
  - destruct (Hall f (or_introl eq_refl)) as (p & r & Hp & Hr). pose proof Hp as (t & Hf & Hmk). unfold read_file in H. rewrite Hf, Hmk, Hr in H.
    destruct (result_line duration show_f show_value r) as [l| |] eqn:El; try discriminate.
    destruct (result_line_ok r l El) as (tl & -> & Htl & H1 & H2). inversion Hn; subst.
    destruct (IH _ _ _ _ H H5) as (lines & -> & -> & L1 & L2); [intros f' Hf'; apply Hall; right; assumption|].
    exists ((f ++ str " " ++ tl) :: lines). split; [unfold as_file; cbn [map List.concat]; rewrite <- !app_assoc; reflexivity|].
    split; [reflexivity|]. split; [constructor; [|assumption]|].
    + repeat apply not_in_app; auto. vm_compute. no_newline.
    + constructor; [|assumption]. exists p, r, tl. auto.
Qed.
End Several.

(** ** Counts *)
Lemma triple_eq (a b c a' b' c' : Z) : a = a' -> b = b' -> c = c' -> (a, b, c) = (a', b', c').
Proof. congruence. Qed.
Lemma count_types_ok l : forall a b c, count_types l a b c = (a + of_type vt_real l, b + of_type vt_general l, c + of_type vt_binary l).
Proof.
  induction l as [|v l IH]; intros a b c; cbn [count_types].
  - unfold of_type. cbn. rewrite !Z.add_0_r. reflexivity.
  - unfold of_type in *. cbn [filter]. destruct (v_type v); cbn iota; rewrite IH; cbn [List.length]; apply triple_eq; lia.
Qed.
Lemma types_partition l : of_type vt_real l + of_type vt_general l + of_type vt_binary l = Z.of_nat (List.length l).
Proof. unfold of_type. induction l as [|v l IH]; [reflexivity|]. cbn [filter]. destruct (v_type v); cbn [List.length]; lia. Qed.
Lemma summary_counts end_time method duration loops show_f show_value pb r out :
  ~ In newline end_time -> one_line method -> one_line duration -> one_line loops -> one_line show_f -> one_line show_value ->
  solution_file end_time method duration loops show_f show_value pb r = Ok out ->
  let n_of t := show_int (of_type t (v_values (p_vars pb))) in
  let size {A} (l : list A) := show_int (Z.of_nat (List.length l)) in
  exists rest, out = str "\ objective : " ++ match p_type pb with maximize => str "maximize" | minimize => str "minimize" end ++ [newline] ++
    str "\ mode: " ++ match o_qelements (p_objective pb) with [] => str "linear" | _ => str "quadratic" end ++ [newline] ++
    str "\ variables: " ++ n_of vt_real ++ str "/" ++ n_of vt_general ++ str "/" ++ n_of vt_binary ++ str " (real/general/binary)" ++ [newline] ++
    str "\ constraints: " ++ size (p_equal pb) ++ str "/" ++ size (p_greater pb) ++ str "/" ++ size (p_less pb) ++ str " (equal/greater/less)" ++ [newline] ++ rest.
Proof.
  intros _ _ _ _ _ _ H n_of size.
  assert (E : exists ls, out = as_file (resume_problem pb ++ ls)).
  { unfold solution_file, before_run in H. cbv zeta in H.
    destruct (sr_status r); try (injection H as <-; rewrite <- !app_assoc; eexists; reflexivity).
    destruct (last_solution r) as [[x v]|]; [|discriminate]. destruct (resume_result _ _ _ _ _ r); try discriminate. injection H as <-. rewrite <- !app_assoc. eexists. reflexivity. }
  destruct E as [ls ->]. rewrite as_file_app. exists (as_file ls). unfold resume_problem. rewrite count_types_ok. rewrite !Z.add_0_l.
  unfold as_file at 1. cbn [map List.concat]. unfold slashes, Main_model.size, n_of, size. change nl with newline. rewrite <- !app_assoc. reflexivity.
Qed.

Section Whole.
Context {D : Type} (dn : dops D) (cost : D -> Z) (run : problem -> run_result (outcome sresult)) (fs : text -> option text).
Variables (pid end_time : text) (method duration loops : sresult -> text) (show_f show_value : option Z -> text).
Let main := main_ dn cost run fs pid end_time method duration loops show_f show_value.

Lemma main_messages fuel ok files e : main fuel ok files = Finished e ->
  (en_code e = 0 <-> ok = true) /\ (ok = false -> en_code e = 1 /\ en_messages e = [Bad_command_line] /\ en_files e = []) /\
  (ok = true -> forall m, In m (en_messages e) <->
    (m = No_file_name /\ files = []) \/
    exists f, In f files /\ ((m = Cannot_read f /\ unreadable dn fs fuel f) \/
      (m = Exception_ f /\ exists p, reads_as dn fs fuel f p /\ run (to_problem cost p) = Finished Throw))).
Proof.
  unfold main, main_. destruct ok; cbn [negb]; intros H.
  2: { inversion H; subst e. cbn. split; [split; intros K; discriminate K|]. split; [auto|intros K; discriminate K]. }
  assert (W : en_code e = 0 /\ forall m, In m (en_messages e) <->
    (m = No_file_name /\ files = []) \/
    exists f, In f files /\ ((m = Cannot_read f /\ unreadable dn fs fuel f) \/
      (m = Exception_ f /\ exists p, reads_as dn fs fuel f p /\ run (to_problem cost p) = Finished Throw))).
  2: { destruct W as [W1 W2]. split; [tauto|]. split; [discriminate|auto]. }
  destruct files as [|f [|f2 files]].
  - inversion H; subst e. cbn. split; [reflexivity|]. intros m. split; [intros [<-|[]]; auto|intros [[-> _]|(f & [] & _)]; auto].
  - assert (M : exists out', main_several dn cost run fs duration show_f show_value fuel [f] [] [] = Finished (out', en_messages e) \/
              exists p, reads_as dn fs fuel f p /\ (exists r, run (to_problem cost p) = Finished (Ok r)) /\ en_messages e = []).
    { unfold main_one in H. cbn [main_several]. destruct (read_file dn fs fuel f) as [[p|]| | |] eqn:E; try discriminate.
      - destruct (run (to_problem cost p)) as [[r| |]| |] eqn:Er; try discriminate.
        + destruct (solution_file _ _ _ _ _ _ _ r) as [out| |]; try discriminate. inversion H; subst e. exists []. right. exists p. split; [|eauto].
          unfold read_file in E. unfold reads_as. destruct (fs f) as [t|]; [|discriminate]. exists t. split; [reflexivity|]. destruct (make_problem dn fuel t); inversion E; reflexivity.
        + inversion H; subst e. eexists. left. reflexivity.
      - inversion H; subst e. eexists. left. reflexivity. }
    split.
    { unfold main_one in H. destruct (read_file dn fs fuel f) as [[p|]| | |]; try discriminate; [|inversion H; reflexivity].
      destruct (run (to_problem cost p)) as [[r| |]| |]; try discriminate; [|inversion H; reflexivity].
      destruct (solution_file _ _ _ _ _ _ _ r); try discriminate. inversion H; reflexivity. }
    destruct M as [out' [M|(p & R & (r & Hr) & M)]].
    + destruct (several_messages _ _ _ _ _ _ _ _ _ _ _ _ _ M) as (more & Em & Hmo). cbn [app] in Em. rewrite Em. intros m. rewrite Hmo.
      split; [intros K; right; exact K|intros [[_ K]|K]; [discriminate K|exact K]].
    + rewrite M. intros m. split; [intros []|]. intros [[_ K]|(f' & [<-|[]] & K)]; [discriminate K|]. exfalso.
      destruct R as (t & R1 & R2). destruct K as [[_ [U|(t' & s & U1 & U2)]]|(_ & p' & (t' & R1' & R2') & Hp')]; [congruence|congruence|].
      assert (p' = p) by congruence. subst p'. congruence.
  - destruct (main_several _ _ _ _ _ _ _ fuel (f :: f2 :: files) [] []) as [[out msgs]| |] eqn:E; try discriminate.
    inversion H; subst e. cbn [en_code en_messages]. split; [reflexivity|].
    destruct (several_messages _ _ _ _ _ _ _ _ _ _ _ _ _ E) as (more & Em & Hmo). cbn [app] in Em. rewrite Em. intros m. rewrite Hmo.
    split; [intros K; right; exact K|intros [[_ K]|K]; [discriminate K|exact K]].
Qed.

Lemma main_results_file fuel files e :
  one_line duration -> one_line show_f -> one_line show_value -> Forall (fun f => ~ In newline f) files -> (2 <= List.length files)%nat ->
  (forall f, In f files -> exists p r, reads_as dn fs fuel f p /\ run (to_problem cost p) = Finished (Ok r)) ->
  main fuel true files = Finished e ->
  exists lines, en_files e = [(str "baryonyx-" ++ pid ++ str ".res", List.concat (map (fun l => l ++ [newline]) lines))] /\
    Forall (fun l => ~ In newline l) lines /\
    Forall2 (fun f l => exists p r t, reads_as dn fs fuel f p /\ run (to_problem cost p) = Finished (Ok r) /\ l = f ++ str " " ++ t /\
      (sr_status r = st_success -> exists t' v, t = show_f v ++ str " " ++ t' /\ snd (List.last (sr_solutions r) ([], None)) = v) /\
      (sr_status r <> st_success -> t = str "No solution found.")) files lines.
Proof.
  intros Hd Hsf Hsv Hn Hl Hall H. unfold main, main_ in H. cbn [negb] in H. destruct files as [|f [|f2 files]]; cbn [List.length] in Hl; try lia.
  destruct (main_several _ _ _ _ _ _ _ fuel (f :: f2 :: files) [] []) as [[out msgs]| |] eqn:E; try discriminate.
  destruct (several_lines dn cost run fs duration show_f show_value Hd Hsf Hsv _ _ _ _ _ _ E Hn Hall) as (lines & L1 & _ & L2 & L3).
  inversion H; subst e. exists lines. split; [cbn [en_files]; rewrite L1; reflexivity|]. auto.
Qed.
End Whole.

Lemma document_names_ok' {D} (dn : dops D) ty d : document_ok dn ty d -> forall nm, In nm (document_names d) -> name_ok dn nm.
Proof. intros H. apply Forall_forall. eapply document_names_ok. eassumption. Qed.
