From Coq Require Import Permutation Sorted.
From Verif Require Import Base Problem_model Merged_model Merged_spec Classify_model Preprocess_model Validate_model Params_model
  Rows_model Solver_model EndToEnd_model Rewrite_spec Layout_spec Layout_proofs Layout_proofs2 Merged_model.
Open Scope Z_scope.

Lemma F2_impl {A B} (P Q : A -> B -> Prop) : (forall a b, P a b -> Q a b) -> forall l l', Forall2 P l l' -> Forall2 Q l l'.
Proof. intros H. induction 1; constructor; auto. Qed.

(** ** Sorting *)
Lemma strictly_unique {A} (lt : A -> A -> Prop) (H : forall a b, lt a b -> lt b a -> False) l :
  forall l', StronglySorted lt l -> StronglySorted lt l' -> Permutation l l' -> l = l'.
Proof.
  induction l as [|a l IH]; intros l' S S' P; [now apply Permutation_nil in P|]. destruct l' as [|b l']; [apply Permutation_sym in P; now apply Permutation_nil in P|].
  inversion S as [|? ? Sl Sa]; subst. inversion S' as [|? ? Sl' Sb]; subst. rewrite Forall_forall in Sa, Sb.
  assert (a = b) as ->.
  { assert (Ia : In a (b :: l')) by (eapply Permutation_in; [exact P|now left]). assert (Ib : In b (a :: l)) by (eapply Permutation_in; [apply Permutation_sym, P|now left]).
    destruct Ia as [E|Ia]; [now symmetry|]. destruct Ib as [E|Ib]; [assumption|]. exfalso. eapply H; [apply Sa, Ib|apply Sb, Ia]. }
  f_equal. apply IH; try assumption. eapply Permutation_cons_inv; eauto.
Qed.
Lemma strict_of {A} (f : A -> Z) l : StronglySorted (fun a b => ~ f b < f a) l -> NoDup (map f l) -> StronglySorted (fun a b => f a < f b) l.
Proof.
  induction 1 as [|a l S IH Fa]; intros N; constructor; inversion N as [|? ? Na Nl]; subst; [auto|]. rewrite Forall_forall in *. intros b Hb.
  specialize (Fa b Hb). assert (f a <> f b) by (intros E; apply Na; rewrite E; now apply in_map). lia.
Qed.
Lemma by_id_sorted std_sort l : sorts std_sort -> StronglySorted (fun a b => ~ m_id b < m_id a) (std_sort merged by_id l).
Proof.
  intros Hs. assert (S : StronglySorted (fun a b => by_id b a = false) (std_sort merged by_id l)).
  { apply Hs; unfold by_id; intros; rewrite ?Z.ltb_lt, ?Z.ltb_ge in *; lia. }
  induction S as [|a t S IH Fa]; constructor; [exact IH|]. eapply Forall_impl; [|exact Fa]. cbv beta. unfold by_id. intros b E. apply Z.ltb_ge in E. lia.
Qed.
Lemma by_var_sorted std_sort l : sorts std_sort -> StronglySorted (fun a b => ~ Z.of_nat (f_var b) < Z.of_nat (f_var a)) (std_sort felem by_var l).
Proof.
  intros Hs. assert (S : StronglySorted (fun a b => by_var b a = false) (std_sort felem by_var l)).
  { apply Hs; unfold by_var; intros; rewrite ?Nat.ltb_lt, ?Nat.ltb_ge in *; lia. }
  induction S as [|a t S IH Fa]; constructor; [exact IH|]. eapply Forall_impl; [|exact Fa]. cbv beta. unfold by_var. intros b E. apply Nat.ltb_ge in E. lia.
Qed.
Lemma sort_turned std_sort l l' : permutes std_sort -> sorts std_sort -> Permutation l l' -> NoDup (map f_var l) ->
  std_sort felem by_var l = std_sort felem by_var l'.
Proof.
  intros Hp Hs P N. assert (D : forall k, Permutation l k -> NoDup (map (fun e => Z.of_nat (f_var e)) (std_sort felem by_var k))).
  { intros k Q. apply (Permutation_NoDup (l := map (fun e => Z.of_nat (f_var e)) l)).
    - apply Permutation_map. eapply perm_trans; [exact Q|apply Permutation_sym, Hp].
    - rewrite <- (map_map f_var Z.of_nat). apply FinFun.Injective_map_NoDup; [intros x y; lia|exact N]. }
  apply (strictly_unique (fun a b => Z.of_nat (f_var a) < Z.of_nat (f_var b))); [lia| | |].
  - apply strict_of; [apply (by_var_sorted std_sort l Hs)|apply D, Permutation_refl].
  - apply strict_of; [apply (by_var_sorted std_sort l' Hs)|apply D, P].
  - eapply perm_trans; [apply Hp|]. eapply perm_trans; [exact P|apply Permutation_sym, Hp].
Qed.
Lemma sort_by_id std_sort (I : Z -> Z -> Prop) (R : merged -> merged -> Prop) l l' : permutes std_sort -> sorts std_sort -> same_order I ->
  (forall m m', R m m' -> I (m_id m) (m_id m')) -> NoDup (map m_id l) -> Forall2 R l l' -> Forall2 R (std_sort merged by_id l) (std_sort merged by_id l').
Proof.
  intros Hp Hs HI HR N F. destruct (Permutation_Forall2 (Permutation_sym (Hp _ by_id l)) F) as (t & Pt & Ft).
  replace (std_sort merged by_id l') with t; [exact Ft|].
  assert (St : StronglySorted (fun a b => m_id a < m_id b) (std_sort merged by_id l)).
  { apply strict_of; [apply (by_id_sorted std_sort l Hs)|]. eapply Permutation_NoDup; [|exact N]. apply Permutation_map, Permutation_sym, Hp. }
  assert (St' : StronglySorted (fun a b => m_id a < m_id b) t).
  { clear - HI HR Ft St. induction Ft as [|a b x y A Fx IH]; [constructor|]. inversion St as [|? ? Sl Fa]; subst. constructor; [auto|].
    clear - HI HR A Fx Fa. induction Fx as [|c d x y C Fx IH]; [constructor|]. inversion Fa as [|? ? Ha Fl]; subst. constructor; [|auto].
    apply (HI _ _ _ _ (HR _ _ A) (HR _ _ C)). exact Ha. }
  assert (Pt' : Permutation t (std_sort merged by_id l')) by (eapply perm_trans; [apply Permutation_sym, Pt|apply Permutation_sym, Hp]).
  apply (strictly_unique (fun a b => m_id a < m_id b)); [lia|exact St'| |exact Pt'].
  apply strict_of; [apply (by_id_sorted std_sort l' Hs)|]. eapply Permutation_NoDup; [apply Permutation_map, Pt'|].
  clear - St'. induction St' as [|a x S IH Fa]; constructor; [|exact IH]. rewrite Forall_forall in Fa. intros K. apply in_map_iff in K. destruct K as (b & E & Hb).
  specialize (Fa b Hb). lia.
Qed.

(** ** The merged constraints *)
Section Merge.
Variables (std_sort : forall A : Type, (A -> A -> bool) -> list A -> list A) (ddiv : Z -> Z -> Z).
Lemma moved_lbl I pb pb' : line_by_line (moved I) pb pb' -> lbl (fun l => l) (fun _ => True) I pb pb'.
Proof.
  intros (_ & _ & _ & _ & _ & A & B & C). unfold lbl.
  split; [|split]; (eapply F2_impl; [|eassumption]); intros c c' (E & V & K); repeat split; assumption.
Qed.
Lemma rows_of (I : Z -> Z -> Prop) (l l' : list merged) : Forall2 (mln (fun l => l) (fun _ => True) I) l l' -> Forall2 row_eq l l'.
Proof. intros H. eapply F2_impl; [|exact H]. intros m m' (_ & A & B & C & _). repeat split; assumption. Qed.
Lemma memory_rows l l' : Forall2 row_eq l l' -> Forall2 row_eq (improve_memory_usage std_sort l) (improve_memory_usage std_sort l').
Proof.
  unfold improve_memory_usage. induction 1 as [|m m' l l' (A & B & C) H IH]; cbn [map]; constructor; [|exact IH]. repeat split; cbn; congruence.
Qed.
Lemma id_inj : forall a b : list felem, True -> True -> a = b -> a = b.
Proof. auto. Qed.
(** *** Other places *)
Lemma ordered_moved I po pb pb' : line_by_line (moved I) pb pb' -> orows (make_ordered po pb) (make_ordered po pb').
Proof.
  intros H. apply moved_lbl in H. unfold orows. destruct po; cbn [make_ordered]; try (exists []; split; [reflexivity|constructor]);
    (match goal with |- orel _ (fill3 ?a ?b ?c pb) _ => pose proof (fill3_ln _ _ _ id_inj a b c _ _ H) as P end);
    unfold orel in *; (destruct (fill3 _ _ _ pb) as [r| |]; [destruct P as (r' & -> & P)|exact P|exact P]); exists r'; (split; [reflexivity|eapply rows_of, P]).
Qed.
Lemma merged_by_type I po pb pb' : by_type po = true -> line_by_line (moved I) pb pb' ->
  orows (make_merged std_sort ddiv po pb) (make_merged std_sort ddiv po pb').
Proof.
  intros T H. assert (O : orows (let! r := make_ordered po pb in Ok (improve_memory_usage std_sort r)) (let! r := make_ordered po pb' in Ok (improve_memory_usage std_sort r))).
  { pose proof (ordered_moved I po _ _ H) as P. unfold orows, orel in *. destruct (make_ordered po pb) as [r| |]; [destruct P as (r' & -> & P)|rewrite P|rewrite P]; cbn [obind];
      [|reflexivity|reflexivity]. eexists. split; [reflexivity|now apply memory_rows]. }
  destruct po; try discriminate; exact O.
Qed.
(** *** Other numbers in the same order *)
Lemma unsorted_moved I pb pb' : permutes std_sort -> sorts std_sort -> same_order I -> places_differ pb -> line_by_line (moved I) pb pb' ->
  orows (make_unsorted std_sort pb) (make_unsorted std_sort pb').
Proof.
  intros Hp Hs HI N H. apply moved_lbl in H. pose proof (fill3_ln _ _ _ id_inj op_equal op_less op_greater _ _ H) as P. unfold make_unsorted, orows, orel in *.
  destruct (fill3 op_equal op_less op_greater pb) as [r| |] eqn:E; [destruct P as (r' & -> & P)|rewrite P; reflexivity|rewrite P; reflexivity]. cbn [obind].
  eexists. split; [reflexivity|]. apply (rows_of I). apply (sort_by_id std_sort I); auto; [intros m m' (_ & _ & _ & _ & K); exact K|]. eapply fill3_places; eauto.
Qed.
Lemma degrees_rows l l' : Forall2 row_eq l l' -> forall d, count_degrees l' d = count_degrees l d.
Proof. induction 1 as [|m m' l l' (A & B & C) H IH]; intros d; cbn [count_degrees]; [reflexivity|]. rewrite A. destruct (count_degree _ _); cbn [bind]; auto. Qed.
Lemma ratios_rows cost l l' : Forall2 row_eq l l' -> forall i, ratios cost l' i = ratios cost l i.
Proof. induction 1 as [|m m' l l' (A & B & C) H IH]; intros i; cbn [ratios]; [reflexivity|]. now rewrite A, IH. Qed.
Lemma set_ids_rows l l' : Forall2 row_eq l l' -> forall r, set_ids l' r = set_ids l r.
Proof. induction 1 as [|m m' l l' (A & B & C) H IH]; intros r; cbn [set_ids]; [reflexivity|]. destruct r; [reflexivity|]. now rewrite A, B, C, IH. Qed.
Lemma refl_rows l : Forall2 row_eq l l.
Proof. induction l; constructor; [repeat split|assumption]. Qed.
Lemma special_moved I po pb pb' : permutes std_sort -> sorts std_sort -> same_order I -> places_differ pb -> line_by_line (moved I) pb pb' ->
  orows (make_special std_sort ddiv po pb) (make_special std_sort ddiv po pb').
Proof.
  intros Hp Hs HI N H. pose proof (unsorted_moved I pb pb' Hp Hs HI N H) as P. destruct H as (O & V & _). unfold make_special. rewrite O, V. unfold orows, orel in P.
  destruct (make_unsorted std_sort pb) as [r| |]; [destruct P as (r' & -> & P)|rewrite P; reflexivity|rewrite P; reflexivity]. cbn [obind].
  rewrite (degrees_rows _ _ P). destruct (count_degrees r _) as [dg|]; cbn [of_opt obind]; [|reflexivity].
  destruct (fill_costs _ _ _ _) as [cost|]; cbn [of_opt obind]; [|reflexivity]. rewrite (ratios_rows _ _ _ P). destruct (ratios cost r 0) as [rt|]; cbn [of_opt obind]; [|reflexivity].
  rewrite (set_ids_rows _ _ P). destruct (set_ids _ _) as [cs|]; cbn [of_opt obind]; [|reflexivity]. eexists. split; [reflexivity|apply refl_rows].
Qed.
Lemma merged_moved I po pb pb' : permutes std_sort -> sorts std_sort -> same_order I -> places_differ pb -> line_by_line (moved I) pb pb' ->
  orows (make_merged std_sort ddiv po pb) (make_merged std_sort ddiv po pb').
Proof.
  intros Hp Hs HI N H. destruct po; try (apply (merged_by_type I); [reflexivity|exact H]); cbn [make_merged]; try (eapply special_moved; eauto; fail).
  - eapply unsorted_moved; eauto.
  - pose proof (unsorted_moved I _ _ Hp Hs HI N H) as P. unfold orows, orel in *.
    destruct (make_unsorted std_sort pb) as [r| |]; [destruct P as (r' & -> & P)|rewrite P|rewrite P]; cbn [obind]; [|reflexivity|reflexivity].
    eexists. split; [reflexivity|now apply memory_rows].
Qed.
(** *** Other orders of the terms *)
Section Terms.
Variables (tau : list felem -> list felem) (pb : problem).
Hypothesis Ht : turns tau pb.
Definition has (l : list felem) : Prop := exists c, In c (p_equal pb ++ p_greater pb ++ p_less pb) /\ c_elements c = l.
Lemma tau_inj a b : has a -> has b -> tau a = tau b -> a = b.
Proof. intros (c & Hc & <-) (d & Hd & <-). destruct Ht as [_ T]. now apply T. Qed.
Lemma turned_lbl pb' : line_by_line (turned tau) pb pb' -> lbl tau has eq pb pb'.
Proof.
  intros (_ & _ & _ & _ & _ & A & B & C). unfold lbl.
  assert (K : forall l l', (forall c, In c l -> In c (p_equal pb ++ p_greater pb ++ p_less pb)) -> Forall2 (turned tau) l l' -> Forall2 (ln tau has eq) l l').
  { intros l l' Hin F. induction F as [|c c' l l' (E & V & K) F IH]; constructor.
    - repeat split; try assumption; [exists c; split; [apply Hin; now left|reflexivity]|now symmetry].
    - apply IH. intros d Hd. apply Hin. now right. }
  split; [|split]; apply K; try assumption; intros c Hc; rewrite !in_app_iff; auto.
Qed.
Lemma memory_turned l l' : permutes std_sort -> sorts std_sort -> Forall2 (mln tau has eq) l l' -> Forall2 row_eq (improve_memory_usage std_sort l) (improve_memory_usage std_sort l').
Proof.
  intros Hp Hs. unfold improve_memory_usage. induction 1 as [|m m' l l' (A & B & C & D & E) H IH]; cbn [map]; constructor; [|exact IH].
  repeat split; cbn; try congruence. rewrite B. destruct A as (c & Hc & <-). destruct Ht as [T _]. destruct (T c Hc) as [P N]. symmetry.
  apply sort_turned; auto. now apply Permutation_sym.
Qed.
Lemma merged_turned po pb' : permutes std_sort -> sorts std_sort -> by_variable po = true -> (po = po_memory -> places_differ pb) -> line_by_line (turned tau) pb pb' ->
  orows (make_merged std_sort ddiv po pb) (make_merged std_sort ddiv po pb').
Proof.
  intros Hp Hs T N H. apply turned_lbl in H.
  assert (O : forall a b c, orows (let! r := fill3 a b c pb in Ok (improve_memory_usage std_sort r)) (let! r := fill3 a b c pb' in Ok (improve_memory_usage std_sort r))).
  { intros a b c. pose proof (fill3_ln _ _ _ tau_inj a b c _ _ H) as P. unfold orows, orel in *. destruct (fill3 a b c pb) as [r| |]; [destruct P as (r' & -> & P)|rewrite P|rewrite P]; cbn [obind];
      [|reflexivity|reflexivity]. eexists. split; [reflexivity|now apply memory_turned]. }
  destruct po; try discriminate; cbn [make_merged make_ordered]; try apply O. unfold make_unsorted.
  pose proof (fill3_ln _ _ _ tau_inj op_equal op_less op_greater _ _ H) as P. unfold orows, orel in *.
  destruct (fill3 op_equal op_less op_greater pb) as [r| |] eqn:E; [destruct P as (r' & -> & P)|rewrite P; reflexivity|rewrite P; reflexivity]. cbn [obind].
  eexists. split; [reflexivity|]. apply memory_turned; auto. apply (sort_by_id std_sort eq); auto.
  - intros i i' j j' -> ->. reflexivity.
  - intros m m' (_ & _ & _ & _ & K); exact K.
  - eapply fill3_places; eauto.
Qed.
End Terms.
End Merge.

Lemma coef_elems_perm l l' : Permutation l l' -> forall r, coef_elems l r = coef_elems l' r.
Proof.
  induction 1 as [|e l l' P IH|e e' l|l k m P IH P' IH']; intros r; [reflexivity| | |congruence].
  - cbn [coef_elems]. rewrite !IH. reflexivity.
  - cbn [coef_elems]. repeat match goal with |- context [?a =? ?b] => destruct (Z.eqb_spec a b) | |- context [?a <=? ?b] => destruct (Z.leb_spec a b) end; cbn [andb orb]; try reflexivity; try lia.
Qed.

(** ** solve() *)
Section Solve.
Context {F G : Type} (fo : fops F) (ro : rops G) (std_sort : forall A : Type, (A -> A -> bool) -> list A -> list A) (ddiv : Z -> Z -> Z).
Variable random_optimizer : problem -> run_result (outcome sresult).
Variable craw : list oelem -> list qelem -> nat -> nat -> option F.
Variable cnorm : list oelem -> list qelem -> nat -> nat -> list bool -> option F.
(** What the solver reads of a problem is the same. *)
Definition same_rows (po : pre_order) (pb pb' : problem) : Prop :=
  p_objective pb' = p_objective pb /\ p_vars pb' = p_vars pb /\ p_affected pb' = p_affected pb /\ p_type pb' = p_type pb /\
  p_problem_type pb' = p_problem_type pb /\ orows (make_merged std_sort ddiv po pb) (make_merged std_sort ddiv po pb').
Lemma itm_solve_rows fuel buffered po pa after g pb pb' : same_rows po pb pb' ->
  itm_solve fo ro std_sort ddiv random_optimizer (by_terms craw) (by_terms cnorm) fuel false buffered po pa after g pb' =
  itm_solve fo ro std_sort ddiv random_optimizer (by_terms craw) (by_terms cnorm) fuel false buffered po pa after g pb.
Proof.
  intros (O & V & A & T & K & P). unfold itm_solve. cbn [negb]. unfold by_terms. rewrite O, V, K. unfold solve_problem. rewrite O, V, A, T.
  unfold orows, orel in P. destruct (make_merged std_sort ddiv po pb) as [r| |]; [destruct P as (r' & -> & P)|rewrite P; reflexivity|rewrite P; reflexivity].
  replace (length r') with (length r) by (rewrite <- (map_length m_elements r'), (elements_eq _ _ P); symmetry; apply map_length).
  replace (is_nil r') with (is_nil r) by (now destruct P). now rewrite (functor_rows _ _ _ _ _ _ _ _ _ _ _ _ _ _ _ P).
Qed.
Definition run_of pfuel fuel pp buffered po pa after g : problem -> run_result (outcome sresult) :=
  user_solve fo ro std_sort ddiv random_optimizer (by_terms craw) (by_terms cnorm) pfuel fuel pp false buffered po pa after g.
Lemma solve_same_rows pfuel fuel buffered po pa after g pb pb' pp :
  match pp with
  | pp_none => same_rows po (unpreprocess pb) (unpreprocess pb')
  | pp_all => match preprocess pfuel pb with
              | Ok (Some q) => exists q', preprocess pfuel pb' = Ok (Some q') /\ same_rows po q q'
              | Ok None => preprocess pfuel pb' = Ok None | Throw => preprocess pfuel pb' = Throw | Crash => preprocess pfuel pb' = Crash end
  end -> run_of pfuel fuel pp buffered po pa after g pb' = run_of pfuel fuel pp buffered po pa after g pb.
Proof.
  unfold run_of, user_solve. destruct pp; intros P; [now apply itm_solve_rows|].
  destruct (preprocess pfuel pb) as [[q|]| |]; [destruct P as (q' & -> & P)|now rewrite P|now rewrite P|now rewrite P]. now apply itm_solve_rows.
Qed.
Lemma solve_by_type pfuel fuel buffered po pa after g I pb pb' pp : by_type po = true -> line_by_line (moved I) pb pb' ->
  run_of pfuel fuel pp buffered po pa after g pb' = run_of pfuel fuel pp buffered po pa after g pb.
Proof.
  intros T H. assert (R : forall q q', line_by_line (moved I) q q' -> same_rows po q q').
  { intros q q' L. pose proof (merged_by_type std_sort ddiv I po q q' T L) as P. destruct L as (O & V & A & T' & K & _). unfold same_rows. auto 10. }
  apply solve_same_rows. destruct pp; [now apply R, unpreprocess_mv|]. pose proof (preprocess_mv I pfuel _ _ H) as P. unfold pmv in P.
  destruct (preprocess pfuel pb) as [[q|]| |]; try exact P. destruct P as (q' & E & P). exists q'. split; [exact E|now apply R].
Qed.
Lemma solve_renumbered pfuel fuel buffered po pa after g I pb pb' pp : permutes std_sort -> sorts std_sort -> same_order I -> places_differ pb ->
  line_by_line (moved I) pb pb' -> run_of pfuel fuel pp buffered po pa after g pb' = run_of pfuel fuel pp buffered po pa after g pb.
Proof.
  intros Hp Hs HI N H. assert (R : forall q q', places_differ q -> line_by_line (moved I) q q' -> same_rows po q q').
  { intros q q' Nq L. pose proof (merged_moved std_sort ddiv I po q q' Hp Hs HI Nq L) as P. destruct L as (O & V & A & T' & K & _). unfold same_rows. auto 10. }
  apply solve_same_rows. destruct pp; [apply R; [exact N|now apply unpreprocess_mv]|]. pose proof (preprocess_mv I pfuel _ _ H) as P. unfold pmv in P.
  destruct (preprocess pfuel pb) as [[q|]| |] eqn:E; try exact P. destruct P as (q' & E' & P). exists q'. split; [exact E'|]. apply R; [|exact P]. eapply preprocess_places; eauto.
Qed.
Lemma coef_csts_turned tau l l' : (forall c, In c l -> Permutation (tau (c_elements c)) (c_elements c)) -> Forall2 (turned tau) l l' -> forall r, coef_csts l' r = coef_csts l r.
Proof.
  intros Hp H. induction H as [|c c' l l' (A & B & C) H IH]; intros r; cbn [coef_csts]; [reflexivity|]. rewrite A, (coef_elems_perm _ _ (Hp c (or_introl eq_refl))).
  destruct (coef_elems (c_elements c) r); [apply IH; intros d Hd; apply Hp; now right|reflexivity].
Qed.
Lemma solve_turned pfuel fuel buffered po pa after g tau pb pb' : permutes std_sort -> sorts std_sort -> turns tau pb -> by_variable po = true ->
  (po = po_memory -> places_differ pb) -> line_by_line (turned tau) pb pb' ->
  run_of pfuel fuel pp_none buffered po pa after g pb' = run_of pfuel fuel pp_none buffered po pa after g pb.
Proof.
  intros Hp Hs Ht T N H. apply solve_same_rows.
  assert (W : which_problem_type pb' = which_problem_type pb).
  { destruct H as (_ & _ & _ & _ & _ & A & B & C). unfold which_problem_type, coefficient_type, coefficient_type_of.
    assert (Z0 : forall l l', Forall2 (turned tau) l l' -> is_nil l' = is_nil l) by (intros l l' []; reflexivity). destruct Ht as [Ht _].
    rewrite (coef_csts_turned tau (p_equal pb) (p_equal pb')), (coef_csts_turned tau (p_greater pb) (p_greater pb')), (coef_csts_turned tau (p_less pb) (p_less pb')), (Z0 _ _ B), (Z0 _ _ C); auto;
      intros c Hc; apply Ht; rewrite !in_app_iff; auto. }
  assert (P : orows (make_merged std_sort ddiv po (unpreprocess pb)) (make_merged std_sort ddiv po (unpreprocess pb'))).
  { apply (merged_turned std_sort ddiv tau (unpreprocess pb) Ht po (unpreprocess pb') Hp Hs T N).
    destruct H as (O & V & _ & T' & _ & A & B & C). unfold line_by_line, unpreprocess. cbn [p_objective p_equal p_greater p_less p_vars p_affected p_type p_problem_type]. auto 10. }
  destruct H as (O & V & _ & T' & _). unfold same_rows. unfold unpreprocess at 1 2 3 4 5 6 7 8 9 10. cbn [p_objective p_vars p_affected p_type p_problem_type]. auto 10.
Qed.
End Solve.
