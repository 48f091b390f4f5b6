From Coq Require Import Permutation.
From Verif Require Import Base Problem_model Problem_spec Merged_model Merged_spec Classify_model Classify_spec Classify_proofs
  Matrix_model Matrix_spec Matrix_proofs Rows_model Rows_spec.
Open Scope Z_scope.

(** ** List facts *)
Lemma list_upd_firstn_skipn {A} (l : list A) i a l' :
  list_upd l i a = Some l' -> l' = firstn i l ++ a :: skipn (S i) l.
Proof.
  revert i l'; induction l as [|h t IH]; intros i l' H; cbn in *; [discriminate|].
  destruct i as [|j]; [inversion H; reflexivity|].
  destruct (list_upd t j a) as [t'|] eqn:E; cbn in H; [|discriminate]. inversion H; subst. cbn. f_equal. exact (IH _ _ E).
Qed.

Lemma skipn_skipn' {A} (l : list A) a b : skipn a (skipn b l) = skipn (b + a) l.
Proof. revert l. induction b as [|b IH]; intros [|h l]; cbn; try reflexivity; [apply skipn_nil|apply IH]. Qed.
Lemma Forall2_length {A B} (R : A -> B -> Prop) l l' : Forall2 R l l' -> length l = length l'.
Proof. induction 1; cbn; congruence. Qed.
Lemma elements_before_S cs k c : nth_error cs k = Some c ->
  (elements_before (map m_elements cs) k + length (m_elements c) <= elements_number cs)%nat.
Proof.
  unfold elements_before, elements_number, list_sum. revert k. induction cs as [|d cs IH]; intros k Hk; cbn in *; [destruct k; discriminate|].
  destruct k as [|k]; cbn in *; [inversion Hk; subst; lia|]. specialize (IH k Hk). lia.
Qed.
Lemma reduced_costs_size_longest cs : reduced_costs_size cs = longest_row cs.
Proof. unfold reduced_costs_size, longest_row. induction cs as [|c cs IH]; cbn; [reflexivity|]. rewrite IH. reflexivity. Qed.
Lemma longest_row_in cs c : In c cs -> (length (m_elements c) <= longest_row cs)%nat.
Proof.
  intros H. unfold longest_row. pose proof (proj1 (list_max_le (map (fun c => length (m_elements c)) cs) _) (le_n _)) as Hl.
  rewrite Forall_forall in Hl. apply Hl. apply in_map_iff. exists c. auto.
Qed.
Lemma concat_length_elements cs : length (map f_factor (concat (map m_elements cs))) = elements_number cs.
Proof.
  rewrite map_length. unfold elements_number, list_sum. induction cs as [|c cs IH]; cbn; [reflexivity|]. rewrite app_length, IH. reflexivity.
Qed.
Lemma nth_error_concat cs k c j e : nth_error cs k = Some c -> nth_error (m_elements c) j = Some e ->
  nth_error (map f_factor (concat (map m_elements cs))) (elements_before (map m_elements cs) k + j) = Some (f_factor e).
Proof.
  revert k. induction cs as [|d cs IH]; intros k Hk Hj; [destruct k; discriminate|].
  cbn [map concat]. rewrite map_app. destruct k as [|k]; cbn in Hk.
  - inversion Hk; subst. change (elements_before _ 0) with 0%nat. cbn [Nat.add]. rewrite nth_error_app1.
    + rewrite nth_error_map, Hj. reflexivity.
    + rewrite map_length. apply nth_error_Some. congruence.
  - unfold elements_before. cbn [firstn map fold_right]. rewrite nth_error_app2 by (rewrite map_length; lia).
    rewrite map_length. rewrite <- (IH k Hk Hj). f_equal. unfold elements_before. lia.
Qed.

Lemma ctor_rows_nth f l bs k c : ctor_rows f l = Ok bs -> nth_error l k = Some c ->
  exists b, nth_error bs k = Some b /\ f c = Ok b.
Proof.
  revert bs k. induction l as [|d l IH]; intros bs k H Hk; [destruct k; discriminate|].
  cbn in H. destruct (f d) as [b| |] eqn:Eb; cbn in H; try discriminate.
  destruct (ctor_rows f l) as [bs'| |] eqn:El; cbn in H; try discriminate. inversion H; subst bs.
  destruct k as [|k]; cbn in *; [inversion Hk; subst; eauto|]. exact (IH bs' k eq_refl Hk).
Qed.
Lemma ctor_rows_length f l bs : ctor_rows f l = Ok bs -> length bs = length l.
Proof.
  revert bs. induction l as [|d l IH]; intros bs H; cbn in H; [inversion H; reflexivity|].
  destruct (f d) as [b| |]; cbn in H; try discriminate. destruct (ctor_rows f l) as [bs'| |]; cbn in H; try discriminate.
  inversion H; subst. cbn. f_equal. apply IH. reflexivity.
Qed.

Definition unit_factor (cl : solver_class) (f : Z) : Prop :=
  match cl with S_equalities_01 | S_inequalities_01 => f = 1 | _ => f = 1 \/ f = -1 end.

Lemma not_Z cl : shares_affect cl -> cl <> S_inequalities_Z.
Proof. destruct cl; cbn; intros H; try discriminate; destruct H. Qed.

(** What the constructor guarantees for a row. *)
Lemma ctor_row_facts cl c lo hi : cl <> S_inequalities_Z -> ctor_row cl c = Ok (lo, hi) ->
  (forall e, In e (m_elements c) -> unit_factor cl (f_factor e)) /\
  ((m_min c = m_max c /\ lo = m_min c /\ hi = m_min c) \/
   (cl <> S_equalities_01 /\ cl <> S_equalities_101 /\ m_min c <> m_max c /\
    lo = Z.max (- count_neg (m_elements c)) (m_min c) /\ hi = Z.min (count_pos (m_elements c)) (m_max c) /\ lo <= hi)).
Proof.
  intros Hcl H. destruct cl; cbn [ctor_row] in H; [| | | |contradiction|].
  - unfold ctor_equalities_01, ensures in H. destruct (forallb _ _) eqn:E; [|discriminate].
    destruct (Z.eqb_spec (m_min c) (m_max c)) as [Em|]; [|discriminate]. inversion H; subst. split.
    + intros e He. rewrite forallb_forall in E. apply Z.eqb_eq. apply E, He.
    + left. auto.
  - unfold ctor_equalities_101, ensures in H. destruct (forallb _ _) eqn:E; [|discriminate].
    destruct (Z.eqb_spec (m_min c) (m_max c)) as [Em|]; [|discriminate]. inversion H; subst. split.
    + intros e He. rewrite forallb_forall in E. specialize (E e He). apply Z.eqb_eq in E. cbn. lia.
    + left. auto.
  - unfold ctor_inequalities_01, ensures in H. destruct (forallb _ _) eqn:E; [|discriminate].
    assert (Hf : forall e, In e (m_elements c) -> f_factor e = 1).
    { intros e He. rewrite forallb_forall in E. apply Z.eqb_eq. apply E, He. }
    split; [exact Hf|].
    assert (Hp : count_pos (m_elements c) = Z.of_nat (length (m_elements c)) /\ count_neg (m_elements c) = 0).
    { revert Hf. generalize (m_elements c) as l. clear. induction l as [|e l IH]; intros Hf; [split; reflexivity|].
      rewrite count_pos_cons, count_neg_cons, (Hf e (or_introl eq_refl)). destruct IH as [-> ->]; [intros; apply Hf; right; assumption|].
      cbn [length]. split; cbn [Z.ltb Z.compare]; lia. }
    destruct (Z.eqb_spec (m_min c) (m_max c)) as [Em|Em]; cbn [fst snd] in H.
    + destruct (m_min c <=? m_max c); inversion H; subst. left. auto.
    + destruct (Z.leb_spec (Z.max 0 (m_min c)) (Z.min (Z.of_nat (length (m_elements c))) (m_max c))); inversion H; subst.
      right. destruct Hp as [-> ->]. repeat split; try discriminate; try lia.
  - unfold ctor_inequalities_101, ensures in H. destruct (forallb _ _) eqn:E; [|discriminate]. split.
    { intros e He. rewrite forallb_forall in E. specialize (E e He). apply Z.eqb_eq in E. cbn. lia. }
    destruct (Z.eqb_spec (m_min c) (m_max c)) as [Em|Em]; cbn [fst snd] in H.
    + destruct (m_min c <=? m_max c); [|discriminate]. destruct (_ =? _); inversion H; subst. left. auto.
    + destruct (Z.leb_spec (Z.max (- count_neg (m_elements c)) (m_min c)) (Z.min (count_pos (m_elements c)) (m_max c))); [|discriminate].
      destruct (_ =? _); inversion H; subst. right. repeat split; try discriminate; try lia.
  - unfold ctor_random, ensures in H. destruct (forallb _ _) eqn:E; [|discriminate]. split.
    { intros e He. rewrite forallb_forall in E. specialize (E e He). apply Z.eqb_eq in E. cbn. lia. }
    destruct (Z.eqb_spec (m_min c) (m_max c)) as [Em|Em]; cbn [fst snd] in H.
    + destruct (m_min c <=? m_max c); inversion H; subst. left. auto.
    + destruct (Z.leb_spec (Z.max (- count_neg (m_elements c)) (m_min c)) (Z.min (count_pos (m_elements c)) (m_max c))); [|discriminate].
      inversion H; subst. right. repeat split; try discriminate; try lia.
Qed.

(** The bounds kept are those of the row cut to the values the row can take. *)
Lemma ctor_row_bounds cl c lo hi : ctor_row cl c = Ok (lo, hi) ->
  exists L U, (forall x, L <= lhs x (m_elements c) <= U) /\
  ((m_min c = m_max c /\ lo = m_min c /\ hi = m_min c) \/
   (lo = Z.max L (m_min c) /\ hi = Z.min U (m_max c) /\ lo <= hi)).
Proof.
  intros H. assert (D : cl = S_inequalities_Z \/ cl <> S_inequalities_Z) by (destruct cl; auto; right; discriminate).
  destruct D as [->|Hz].
  - exists (sum_neg (m_elements c)), (sum_pos (m_elements c)). split; [intros x; apply lhs_Z_range|].
    cbn [ctor_row] in H. unfold ctor_inequalities_Z, ensures in H. destruct (forallb _ _); [|discriminate].
    destruct (Z.eqb_spec (m_min c) (m_max c)) as [Em|Em]; cbn [fst snd] in H.
    + destruct (m_min c <=? m_max c); inversion H; subst. left. auto.
    + destruct (Z.leb_spec (Z.max (sum_neg (m_elements c)) (m_min c)) (Z.min (sum_pos (m_elements c)) (m_max c))); inversion H; subst. right. auto.
  - destruct (ctor_row_facts cl c lo hi Hz H) as [Hf Hb].
    exists (- count_neg (m_elements c)), (count_pos (m_elements c)). split; [|tauto].
    intros x. apply lhs_101_range. intros e He. specialize (Hf e He). destruct cl; cbn in Hf; auto.
Qed.

Section Proofs.
Context {F G : Type} (fo : fops F) (ro : rops G)
        (std_sort : forall A : Type, (A -> A -> bool) -> list A -> list A).
Hypothesis Hperm : permutes std_sort.
Hypothesis Hshuf : shuffles ro.

(** ** Sorting *)
Lemma shuffle_runs_perm l : forall first run g, Permutation (fst (shuffle_runs fo ro first run l g)) (run ++ l).
Proof.
  induction l as [|b l IH]; intros first run g; cbn [shuffle_runs].
  - rewrite app_nil_r. apply Hshuf.
  - destruct (fl_eqb fo (rc_value first) (rc_value b)).
    + etransitivity; [apply IH|]. rewrite <- app_assoc. reflexivity.
    + destruct (rg_shuffle ro _ g run) as [s g1] eqn:E1. destruct (shuffle_runs fo ro b [b] l g1) as [t g2] eqn:E2. cbn [fst].
      apply Permutation_app; [|].
      * pose proof (Hshuf _ g run) as H. rewrite E1 in H. exact H.
      * pose proof (IH b [b] g1) as H. rewrite E2 in H. exact H.
Qed.
Lemma calculator_sort_perm mode (R : list (rc F)) n g :
  exists T, fst (calculator_sort fo ro std_sort mode R n g) = T ++ skipn n R /\ Permutation T (firstn n R).
Proof.
  unfold calculator_sort. destruct (firstn n R) as [|a [|b l]] eqn:E.
  - exists []. split; [|constructor]. cbn. rewrite <- (firstn_skipn n R) at 1. rewrite E. reflexivity.
  - exists [a]. split; [|reflexivity]. cbn. rewrite <- (firstn_skipn n R) at 1. rewrite E. reflexivity.
  - pose proof (Hperm _ (rc_lt fo mode) (a :: b :: l)) as Hp.
    destruct (std_sort _ (rc_lt fo mode) (a :: b :: l)) as [|e l'].
    + apply Permutation_nil in Hp. discriminate.
    + pose proof (shuffle_runs_perm l' e [e] g) as Hs. destruct (shuffle_runs fo ro e [e] l' g) as [s g']. cbn [fst] in *.
      exists s. split; [reflexivity|]. etransitivity; eassumption.
Qed.

(** ** The key of a reduced cost: position in the row and coefficient *)
Definition rkey (e : rc F) : nat * Z := (rc_id e, rc_f e).

(** ** assign_range over a list *)
Fixpoint assign_list (row : list (nat * nat)) (T : list (rc F)) (up : bool) (d : F) (x : list bool) (P : list F)
  : option (list bool * list F) :=
  match T with
  | [] => Some (x, P)
  | e :: T' =>
    do (slot, col) <- nth_error row (rc_id e);
    let one := xorb (is_negative e) up in
    do x' <- list_upd x col one;
    do P' <- list_modify P slot (fun p => if one then fl_add fo p d else fl_sub fo p d);
    assign_list row T' up d x' P'
  end.
Lemma assign_range_list row R up d n : forall i x P, (i + n <= length R)%nat ->
  assign_range fo row R up d n i x P = assign_list row (firstn n (skipn i R)) up d x P.
Proof.
  induction n as [|n IH]; intros i x P Hl; cbn [assign_range firstn]; [reflexivity|].
  destruct (nth_error R i) as [e|] eqn:E; [|apply nth_error_None in E; lia].
  assert (Hs : skipn i R = e :: skipn (S i) R).
  { clear -E. revert i E. induction R as [|a R IH]; intros [|i] E; cbn in *; try discriminate; [inversion E; reflexivity|].
    apply IH in E. destruct R; exact E. }
  rewrite Hs. cbn [assign_list bind]. destruct (nth_error row (rc_id e)) as [[slot col]|]; cbn [bind]; [|reflexivity].
  destruct (list_upd x col _); cbn [bind]; [|reflexivity]. destruct (list_modify P slot _); cbn [bind]; [|reflexivity].
  apply IH. lia.
Qed.

Definition col_of (row : list (nat * nat)) (e : rc F) : nat := snd (nth (rc_id e) row (0, 0)%nat).
Lemma assign_list_ok row up d T : forall x P,
  (forall e, In e T -> (rc_id e < length row)%nat) ->
  (forall p, In p row -> (fst p < length P)%nat /\ (snd p < length x)%nat) ->
  NoDup (map (col_of row) T) ->
  exists x' P', assign_list row T up d x P = Some (x', P') /\ length x' = length x /\ length P' = length P /\
    (forall e, In e T -> nth_error x' (col_of row e) = Some (xorb (is_negative e) up)) /\
    (forall v, ~ In v (map (col_of row) T) -> nth_error x' v = nth_error x v).
Proof.
  induction T as [|e T IH]; intros x P Hid Hb Hnd; cbn [assign_list].
  - exists x, P. repeat split; auto. intros e [].
  - assert (Hi : (rc_id e < length row)%nat) by (apply Hid; left; reflexivity).
    assert (Hn : nth_error row (rc_id e) = Some (nth (rc_id e) row (0, 0)%nat)) by (apply nth_error_nth'; assumption).
    destruct (nth (rc_id e) row (0, 0)%nat) as [slot col] eqn:En.
    assert (Hc : col_of row e = col) by (unfold col_of; rewrite En; reflexivity).
    rewrite Hn. cbn [bind]. destruct (Hb (slot, col)) as [Hs Hx]; [eapply nth_error_In; eassumption|]. cbn [fst snd] in *.
    destruct (list_upd_some x col (xorb (is_negative e) up) Hx) as [x1 Hx1]. rewrite Hx1. cbn [bind].
    destruct (list_modify_some P slot (fun p => if xorb (is_negative e) up then fl_add fo p d else fl_sub fo p d) Hs) as (a & P1 & _ & _ & HP1).
    rewrite HP1. cbn [bind]. cbn [map] in Hnd. inversion Hnd as [|? ? Hni Hnd']; subst.
    pose proof (list_upd_length _ _ _ _ Hx1) as Hlx. pose proof (list_modify_length _ _ _ _ HP1) as HlP.
    destruct (IH x1 P1) as (x' & P' & Ha & Hl1 & Hl2 & Hin & Hout).
    { intros e' He'. apply Hid. right. assumption. }
    { intros p Hp. rewrite Hlx, HlP. apply Hb. assumption. }
    { assumption. }
    exists x', P'. split; [assumption|]. split; [lia|]. split; [lia|]. split.
    + intros e' [<-|He'].
      * rewrite Hout by assumption. rewrite (list_upd_nth _ _ _ _ _ Hx1), Nat.eqb_refl. reflexivity.
      * apply Hin. assumption.
    + intros v Hv. cbn [map In] in Hv. rewrite Hout by tauto. rewrite (list_upd_nth _ _ _ _ _ Hx1).
      destruct (Nat.eqb_spec v (col_of row e)) as [->|]; [tauto|reflexivity].
Qed.

(** ** The solver built by the constructor *)
Section Solver.
Variables (cl : solver_class) (cs : list merged) (n : nat) (c : nat -> list bool -> option F)
          (mode : objective_type) (after : list (rc F)) (x0 : list bool) (g0 : G) (sv : solver F) (s0 : state F G).
Hypothesis Hmk : make_solver fo cl cs n c mode after x0 g0 = Ok (sv, s0).
Hypothesis Hcl : shares_affect cl.
Hypothesis Hrows : forall r, In r cs -> row_ok n r.
Hypothesis Hcost : cost_defined n c.

Lemma mk_fields : exists ap b, make_matrix (map m_elements cs) n = Some ap /\ solver_ctor cl cs = Ok b /\
  sv = mk_solver F cl ap (map f_factor (concat (map m_elements cs))) b (length cs) c mode after cs /\
  s0 = mk_state x0 (repeat (fl_of_Z fo 0) (elements_number cs)) (repeat (fl_of_Z fo 0) (length cs))
        (repeat (mk_rc (fl_of_Z fo 0) 0 0%nat) (longest_row cs)) g0.
Proof.
  unfold make_solver in Hmk. destruct (make_matrix (map m_elements cs) n) as [ap|] eqn:E; cbn in Hmk; [|discriminate].
  destruct (solver_ctor cl cs) as [b| |] eqn:Eb; cbn in Hmk; try discriminate. inversion Hmk; subst.
  exists ap, b. rewrite concat_length_elements, reduced_costs_size_longest. auto.
Qed.
Lemma has_element : exists r, In r (map m_elements cs) /\ r <> [].
Proof.
  destruct mk_fields as (ap & b & Hap & _). unfold make_matrix in Hap.
  destruct (nth_error (make_accessors 0 (map m_elements cs) 0) 0) as [a|] eqn:E; [|discriminate].
  apply nth_error_In in E. apply make_accessors_in in E. destruct E as (k & j & r & e & Hk & Hj & _).
  exists r. split; [eapply nth_error_In; eassumption|]. intros ->. destruct j; discriminate.
Qed.
Lemma vars_in_range : forall r e, In r (map m_elements cs) -> In e r -> (f_var e < n)%nat.
Proof. intros r e Hr He. apply in_map_iff in Hr. destruct Hr as (m & <- & Hm). apply (Hrows m Hm). assumption. Qed.

Lemma n_pos : (0 < n)%nat.
Proof.
  destruct has_element as (r & Hr & Hne). destruct r as [|e r]; [contradiction|].
  specialize (vars_in_range (e :: r) e Hr (or_introl eq_refl)). lia.
Qed.
Lemma capacity_pos : (0 < longest_row cs)%nat.
Proof.
  destruct has_element as (r & Hr & Hne). apply in_map_iff in Hr. destruct Hr as (m & <- & Hm).
  pose proof (longest_row_in cs m Hm). destruct (m_elements m); [contradiction|]. cbn in *. lia.
Qed.

(** How a row of the matrix matches a constraint. *)
Definition row_rel (p : nat * nat) (e : felem) : Prop :=
  factor sv (fst p) = Some (f_factor e) /\ snd p = f_var e /\ (fst p < elements_number cs)%nat.

Lemma row_matches k r : nth_error cs k = Some r ->
  exists row, mx_row (sv_ap sv) k = Some row /\ Forall2 row_rel row (m_elements r).
Proof.
  clear Hcl. intros Hk. destruct mk_fields as (ap & b & Hap & Hb & Hsv & _).
  assert (Hk' : nth_error (map m_elements cs) k = Some (m_elements r)) by (rewrite nth_error_map, Hk; reflexivity).
  pose proof (mx_row_ok (map m_elements cs) n vars_in_range has_element ap k (m_elements r) Hap Hk' n_pos) as Hr.
  destruct (ctor_rows_nth _ _ _ _ _ Hb Hk) as ([lo hi] & Hbk & Hc).
  assert (Hf : cl <> S_inequalities_Z -> forall e, In e (m_elements r) -> unit_factor cl (f_factor e))
    by (intros Hz; apply (ctor_row_facts _ _ _ _ Hz Hc)).
  eexists. split; [rewrite Hsv; exact Hr|]. pose proof (elements_before_S cs k r Hk) as Hle.
  assert (Hgen : forall l j, (forall i e, nth_error l i = Some e -> nth_error (m_elements r) (j + i) = Some e) ->
    (j + length l <= length (m_elements r))%nat ->
    Forall2 row_rel (map (fun a => (ac_id a, ac_col a)) (accessors_row k l (elements_before (map m_elements cs) k + j))) l).
  { induction l as [|e l IH]; intros j Hl Hj; cbn [accessors_row map]; constructor.
    - unfold row_rel. cbn [fst snd ac_id ac_col]. split; [|split; [reflexivity|cbn in Hj; lia]].
      pose proof (Hl 0%nat e eq_refl) as He. rewrite Nat.add_0_r in He.
      unfold factor. rewrite Hsv. cbn [sv_class sv_A].
      pose proof (fun Hz => Hf Hz e (nth_error_In _ _ He)) as Hfe.
      pose proof (nth_error_concat cs k r j e Hk He) as Hn.
      destruct cl; try exact Hn; (rewrite Hfe by discriminate; reflexivity).
    - rewrite <- Nat.add_succ_r. apply IH; [|cbn in Hj; lia]. intros i e' Hi. rewrite Nat.add_succ_comm. apply Hl. exact Hi. }
  specialize (Hgen (m_elements r) 0%nat). rewrite Nat.add_0_r in Hgen. apply Hgen; auto with arith.
Qed.

Lemma column_ok v : (v < n)%nat -> exists l, mx_column (sv_ap sv) v = Some l /\
  forall p, In p l -> (fst p < elements_number cs)%nat /\ (snd p < length cs)%nat /\ exists f, factor sv (fst p) = Some f.
Proof.
  clear Hcl. intros Hv. destruct mk_fields as (ap & b & Hap & Hb & Hsv & _).
  assert (Eap : sv_ap sv = ap) by (rewrite Hsv; reflexivity). rewrite Eap, (mx_column_ok (map m_elements cs) n vars_in_range has_element ap v Hap Hv).
  eexists. split; [reflexivity|]. intros p Hp. apply in_map_iff in Hp. destruct Hp as (a & <- & Ha).
  apply filter_In in Ha. destruct Ha as [Ha _]. apply make_accessors_in in Ha.
  destruct Ha as (k & j & el & e & Hk & Hj & ->). cbn [ac_id ac_row fst snd Nat.add].
  rewrite nth_error_map in Hk. destruct (nth_error cs k) as [r|] eqn:Er; [|discriminate]. inversion Hk; subst el.
  assert (Hlt : (j < length (m_elements r))%nat) by (apply nth_error_Some; congruence).
  pose proof (elements_before_S cs k r Er) as Hle.
  assert (Hs : (elements_before (map m_elements cs) k + j < elements_number cs)%nat) by lia.
  split; [exact Hs|]. split; [apply nth_error_Some; congruence|].
  unfold factor. rewrite Hsv. cbn [sv_class sv_A]. pose proof (nth_error_concat cs k r j e Er Hj) as Hn.
  destruct cl; eauto.
Qed.

Lemma factor_class f slot : factor sv slot = Some f ->
  match sv_class sv with S_equalities_01 | S_inequalities_01 => f = 1 | _ => True end.
Proof. unfold factor. destruct (sv_class sv); intros H; try exact I; inversion H; reflexivity. Qed.

(** ** Reduced costs *)
Lemma decrease_ok theta row : forall P, (forall p, In p row -> (fst p < length P)%nat) ->
  exists P', decrease_preference fo theta row P = Some P' /\ length P' = length P.
Proof.
  induction row as [|[slot col] row IH]; intros P Hp; cbn [decrease_preference]; [eauto|].
  destruct (list_modify_some P slot (fun p => fl_mul fo p theta)) as (a & P1 & _ & _ & H1); [apply (Hp (slot, col)); left; reflexivity|].
  rewrite H1. cbn [bind]. pose proof (list_modify_length _ _ _ _ H1) as Hl.
  destruct (IH P1) as (P' & H2 & H3); [intros p Hin; rewrite Hl; apply Hp; right; assumption|]. exists P'. split; [assumption|lia].
Qed.
Lemma sum_column_ok P pi l : forall a b, length P = elements_number cs -> length pi = length cs ->
  (forall p, In p l -> (fst p < elements_number cs)%nat /\ (snd p < length cs)%nat /\ exists f, factor sv (fst p) = Some f) ->
  exists u w, sum_column fo sv P pi l a b = Some (u, w).
Proof.
  induction l as [|[slot row] l IH]; intros a b HP Hpi Hl; cbn [sum_column]; [eauto|].
  destruct (Hl (slot, row) (or_introl eq_refl)) as (Hs & Hr & f & Hf). cbn [fst snd] in *.
  destruct (nth_error pi row) as [q|] eqn:Eq; [|apply nth_error_None in Eq; lia].
  destruct (nth_error P slot) as [p|] eqn:Ep; [|apply nth_error_None in Ep; lia]. cbn [bind].
  rewrite Hf. cbn [bind].
  assert (Hl' : forall p, In p l -> (fst p < elements_number cs)%nat /\ (snd p < length cs)%nat /\ exists f, factor sv (fst p) = Some f)
    by (intros; apply Hl; right; assumption).
  destruct (sv_class sv); apply IH; assumption.
Qed.

Definition negatives (l : list felem) : Z := Z.of_nat (length (filter (fun e => f_factor e <? 0) l)).
Lemma negatives_cons e l : negatives (e :: l) = (if f_factor e <? 0 then 1 else 0) + negatives l.
Proof. unfold negatives. cbn [filter]. destruct (f_factor e <? 0); cbn [length]; lia. Qed.

Lemma reduced_costs_ok x P pi : length x = n -> length P = elements_number cs -> length pi = length cs ->
  forall row els, Forall2 row_rel row els -> (forall e, In e els -> (f_var e < n)%nat) ->
  forall R r cz, (r + length row <= length R)%nat ->
  exists new, compute_reduced_costs fo sv x P pi row R r cz
                = Some (firstn r R ++ new ++ skipn (r + length row) R, (r + length row)%nat, cz + negatives els) /\
    map rkey new = combine (seq r (length row)) (map f_factor els).
Proof.
  intros Hx HP Hpi row els H. induction H as [|[slot col] e row els Hr HF IH]; intros Hv R r cz Hl; cbn [compute_reduced_costs length].
  - exists []. rewrite Nat.add_0_r. cbn [app]. rewrite firstn_skipn. split; [|reflexivity]. unfold negatives. cbn. do 2 f_equal. lia.
  - destruct Hr as (Hfac & Hcol & Hslot). cbn [fst snd] in *. subst col.
    assert (Hve : (f_var e < n)%nat) by (apply Hv; left; reflexivity).
    destruct (column_ok (f_var e) Hve) as (l & Hcl' & Hl'). rewrite Hcl'. cbn [bind].
    destruct (sum_column_ok P pi l (fl_of_Z fo 0) (fl_of_Z fo 0) HP Hpi Hl') as (u & w & Hsum). rewrite Hsum. cbn [bind].
    assert (Hsvc : sv_c sv = c) by (destruct mk_fields as (? & ? & _ & _ & -> & _); reflexivity).
    rewrite Hsvc. destruct (Hcost (f_var e) x Hve Hx) as [cf Hcf]. rewrite Hcf. cbn [bind]. rewrite Hfac. cbn [bind].
    set (el := if f_factor e <? 0 then _ else _). cbn [length] in Hl.
    destruct (list_upd_some R r el) as [R' HR']; [lia|]. rewrite HR'. cbn [bind].
    pose proof (list_upd_length _ _ _ _ HR') as HlR.
    destruct (IH (fun e' He' => Hv e' (or_intror He')) R' (S r) (if f_factor e <? 0 then cz + 1 else cz)) as (new & Hnew & Hkey); [lia|].
    exists (el :: new). split.
    + rewrite Hnew. pose proof (list_upd_firstn_skipn _ _ _ _ HR') as E.
      assert (Hlf : length (firstn r R) = r) by (apply firstn_length_le; lia).
      assert (E1 : firstn (S r) R' = firstn r R ++ [el]).
      { rewrite E. replace (S r) with (length (firstn r R) + 1)%nat by lia.
        rewrite firstn_app_2. cbn. reflexivity. }
      assert (E2 : skipn (S r + length row) R' = skipn (r + S (length row)) R).
      { rewrite E. rewrite skipn_app, Hlf. rewrite skipn_all2 by lia. cbn [app].
        replace (S r + length row - r)%nat with (S (length row)) by lia. cbn [skipn].
        change (match R with [] => [] | _ :: l0 => skipn r l0 end) with (skipn (S r) R).
        rewrite skipn_skipn'. f_equal. lia. }
      assert (Ez : (if f_factor e <? 0 then cz + 1 else cz) + negatives els = cz + negatives (e :: els))
        by (rewrite negatives_cons; destruct (f_factor e <? 0); lia).
      rewrite E1, E2, Ez, <- app_assoc, Nat.add_succ_r. reflexivity.
    + cbn [map seq combine]. f_equal; [|exact Hkey]. unfold rkey, el. destruct (f_factor e <? 0); reflexivity.
Qed.

Lemma push_costs_ok x row els amp : length x = n -> Forall2 row_rel row els -> (forall e, In e els -> (f_var e < n)%nat) ->
  (length row <= n)%nat ->
  forall m R i, (i + m <= length R)%nat ->
  (forall j e, (i <= j < i + m)%nat -> nth_error R j = Some e -> (rc_id e < length row)%nat) ->
  exists R', push_costs fo sv x row amp R m i = Some R' /\ map rkey R' = map rkey R.
Proof.
  intros Hx Hrel Hv Hrn. induction m as [|m IH]; intros R i Hl Hid; cbn [push_costs]; [eauto|].
  destruct (nth_error R i) as [e|] eqn:E; [|apply nth_error_None in E; lia]. cbn [bind].
  assert (Hlt : (rc_id e < length row)%nat) by (apply (Hid i); [lia|assumption]).
  assert (Hsvc : sv_c sv = c) by (destruct mk_fields as (? & ? & _ & _ & -> & _); reflexivity).
  assert (Hcst : exists cf, match sv_class sv with
               | S_equalities_01 | S_inequalities_01 => sv_c sv (rc_id e) x
               | _ => do (_, col) <- nth_error row (rc_id e); sv_c sv col x
               end = Some cf).
  { rewrite Hsvc. assert (H1 : exists cf, c (rc_id e) x = Some cf) by (apply Hcost; [lia|assumption]).
    assert (H2 : exists cf, (do (_, col) <- nth_error row (rc_id e); c col x) = Some cf).
    { destruct (nth_error row (rc_id e)) as [[slot col]|] eqn:En; [|apply nth_error_None in En; lia]. cbn [bind].
      apply Hcost; [|assumption].
      destruct (nth_error els (rc_id e)) as [fe|] eqn:Ee.
      - assert (Hrr : row_rel (slot, col) fe).
        { clear -Hrel En Ee. revert En Ee. generalize (rc_id e) as j. induction Hrel as [|p f row els Hp Hrel IH]; intros [|j] En Ee; try discriminate.
          - cbn in *. inversion En; inversion Ee; subst. assumption.
          - cbn in *. eapply IH; eassumption. }
        destruct Hrr as (_ & Hc' & _). cbn in Hc'. rewrite Hc'. apply Hv. eapply nth_error_In; eassumption.
      - apply nth_error_None in Ee. apply Forall2_length in Hrel. lia. }
    destruct (sv_class sv); assumption. }
  destruct Hcst as [cf ->]. cbn [bind].
  set (e' := mk_rc _ _ _). destruct (list_upd_some R i e') as [R1 H1]; [lia|]. rewrite H1. cbn [bind].
  pose proof (list_upd_length _ _ _ _ H1) as Hl1.
  assert (Hk : map rkey R1 = map rkey R).
  { apply nth_error_ext. intros j. rewrite !nth_error_map, (list_upd_nth _ _ _ _ _ H1).
    destruct (Nat.eqb_spec j i) as [Hji|]; [subst j; rewrite E; reflexivity|reflexivity]. }
  destruct (IH R1 (S i)) as (R' & HR' & HkR'); [lia| |].
  - intros j ej Hj Hej. apply (Hid j); [lia|]. rewrite (list_upd_nth _ _ _ _ _ H1) in Hej.
    destruct (Nat.eqb_spec j i); [lia|assumption].
  - exists R'. split; [assumption|]. congruence.
Qed.

(** ** Selection *)
Lemma select_loop_ok md R m : forall i hi g, 0 <= i -> i + Z.of_nat m = hi + 1 -> (hi < Z.of_nat (length R) \/ m = 0%nat) ->
  exists t g', select_loop fo ro md R m i hi g = Some (t - 1, g') /\ (i <= t <= hi \/ (m = 0%nat /\ t = hi)).
Proof.
  induction m as [|m IH]; intros i hi g Hi Hm Hl; cbn [select_loop].
  - exists hi, g. split; [reflexivity|]. right. auto.
  - destruct Hl as [Hl|Hl]; [|discriminate]. unfold nth_Z. destruct (Z.ltb_spec i 0); [lia|].
    destruct (nth_error R (Z.to_nat i)) as [e|] eqn:E; [|apply nth_error_None in E; lia]. cbn [bind].
    destruct (stop_iterating fo ro md (rc_value e) g) as [[|] g1].
    + exists i, g1. split; [reflexivity|]. left. lia.
    + destruct (IH (i + 1) hi g1) as (t & g' & Ht & Hr); [lia|lia|left; assumption|]. exists t, g'. split; [assumption|]. left. lia.
Qed.

Lemma count_neg_negatives r : (forall e, In e (m_elements r) -> unit_factor cl (f_factor e)) -> count_neg (m_elements r) = negatives (m_elements r).
Proof.
  unfold count_neg, negatives. intros H. f_equal. f_equal. apply filter_ext_in. intros e He. specialize (H e He).
  destruct cl; cbn in H; destruct (Z.ltb_spec 0 (f_factor e)), (Z.ltb_spec (f_factor e) 0); cbn; try reflexivity; lia.
Qed.

Lemma select_ok R r lo hi k g x1 : nth_error cs k = Some r ->
  ctor_row cl r = Ok (lo, hi) -> lo <= lhs x1 (m_elements r) <= hi -> buffer_long_enough cs after r ->
  length R = longest_row cs ->
  exists t g', select_variables fo ro sv R (length (m_elements r)) (match cl with S_equalities_01 | S_inequalities_01 => 0 | _ => negatives (m_elements r) end) lo hi g = Some (t - 1, g') /\
    0 <= t <= Z.of_nat (length (m_elements r)) /\ lo <= t - negatives (m_elements r) <= hi.
Proof.
  intros Hk Hc Hx Hbuf HR. destruct (ctor_row_facts _ _ _ _ (not_Z _ Hcl) Hc) as [Hf Hb].
  pose proof (count_neg_negatives r Hf) as Hneg. pose proof (count_total (m_elements r)) as Htot.
  assert (Hf101 : forall e, In e (m_elements r) -> f_factor e = 1 \/ f_factor e = -1).
  { intros e He. specialize (Hf e He). destruct cl; cbn in Hf; auto. }
  pose proof (lhs_101_range x1 _ Hf101) as Hrange.
  assert (H01 : match cl with S_equalities_01 | S_inequalities_01 => negatives (m_elements r) = 0 | _ => True end).
  { assert (Hn : (forall e, In e (m_elements r) -> f_factor e = 1) -> negatives (m_elements r) = 0).
    { clear. unfold negatives. generalize (m_elements r) as l. induction l as [|e l IH]; intros H; [reflexivity|]. cbn [filter].
      rewrite (H e (or_introl eq_refl)). cbn [Z.ltb Z.compare]. apply IH. intros; apply H; right; assumption. }
    destruct cl; auto. }
  pose proof (longest_row_in cs r (nth_error_In _ _ Hk)) as Hlong.
  assert (Hsc : sv_class sv = cl) by (destruct mk_fields as (? & ? & _ & _ & -> & _); reflexivity).
  assert (Hp : positives r = count_pos (m_elements r)) by reflexivity.
  assert (Hsa : sv_after sv = after) by (destruct mk_fields as (? & ? & _ & _ & -> & _); reflexivity).
  unfold select_variables. rewrite Hsc, Hsa.
  destruct Hb as [(Em & -> & ->)|(He1 & He2 & Em & Hlo & Hhi & Hle)].
  - destruct cl; try contradiction; rewrite ?Z.eqb_refl; eexists (Z.min _ _), g; (split; [reflexivity|]); lia.
  - destruct cl; try contradiction; clear He1 He2.
    + destruct (Z.eqb_spec lo hi) as [El|El].
      * eexists (Z.min _ _), g. split; [reflexivity|]. lia.
      * destruct (select_loop_ok (sv_mode sv) (R ++ after) (Z.to_nat (Z.min hi (Z.of_nat (length (m_elements r))) - Z.min lo (Z.of_nat (length (m_elements r))) + 1))
          (Z.min lo (Z.of_nat (length (m_elements r)))) (Z.min hi (Z.of_nat (length (m_elements r)))) g) as (t & g' & Ht & Hr).
        { lia. } { lia. }
        { left. rewrite app_length, HR. destruct Hbuf as [Hne|Hbuf]; [destruct after; [contradiction|cbn [length]; lia]|]. unfold buffer_long_enough in Hbuf. lia. }
        exists t, g'. split; [exact Ht|]. lia.
    + destruct (Z.eqb_spec lo hi) as [El|El].
      * eexists (Z.min _ _), g. split; [reflexivity|]. lia.
      * destruct (select_loop_ok (sv_mode sv) (R ++ after) (Z.to_nat (Z.min (hi + negatives (m_elements r)) (Z.of_nat (length (m_elements r))) - (lo + negatives (m_elements r)) + 1))
          (lo + negatives (m_elements r)) (Z.min (hi + negatives (m_elements r)) (Z.of_nat (length (m_elements r)))) g) as (t & g' & Ht & Hr).
        { lia. } { lia. }
        { left. rewrite app_length, HR. destruct Hbuf as [Hne|Hbuf]; [destruct after; [contradiction|cbn [length]; lia]|]. unfold buffer_long_enough in Hbuf. lia. }
        exists t, g'. split; [exact Ht|]. lia.
Qed.

(** ** The value of a row *)
Lemma row_sum_lhs x : length x = n -> forall row els, Forall2 row_rel row els -> (forall e, In e els -> (f_var e < n)%nat) ->
  forall v, row_sum sv x row v = Some (v + lhs (as_assignment x) els).
Proof.
  intros Hx row els H. induction H as [|[slot col] e row els Hr HF IH]; intros Hv v; cbn [row_sum lhs]; [f_equal; lia|].
  destruct Hr as (Hfac & Hcol & _). cbn [fst snd] in *. subst col. rewrite Hfac. cbn [bind].
  assert (Hlt : (f_var e < length x)%nat) by (rewrite Hx; apply Hv; left; reflexivity).
  rewrite (nth_error_nth' x false Hlt). cbn [bind]. rewrite IH by (intros; apply Hv; right; assumption).
  unfold as_assignment, bz. f_equal. lia.
Qed.

Lemma bounds_at k r : nth_error cs k = Some r ->
  exists lo hi, nth_error (sv_b sv) k = Some (lo, hi) /\ ctor_row cl r = Ok (lo, hi).
Proof.
  intros Hk. destruct mk_fields as (ap & b & _ & Hb & Hsv & _).
  destruct (ctor_rows_nth _ _ _ _ _ Hb Hk) as ([lo hi] & H1 & H2). exists lo, hi. rewrite Hsv. auto.
Qed.

Lemma is_valid_constraint_value x k r lo hi : length x = n -> nth_error cs k = Some r -> nth_error (sv_b sv) k = Some (lo, hi) ->
  is_valid_constraint sv k x = Some ((lo <=? lhs (as_assignment x) (m_elements r)) && (lhs (as_assignment x) (m_elements r) <=? hi)).
Proof.
  clear Hcl. intros Hx Hk Hb. destruct (row_matches k r Hk) as (row & Hrow & Hrel). unfold is_valid_constraint. rewrite Hrow. cbn [bind].
  rewrite (row_sum_lhs x Hx row _ Hrel). 2: { apply (Hrows r). eapply nth_error_In; eassumption. }
  cbn [bind]. unfold bound_min, bound_max. rewrite Hb. cbn. reflexivity.
Qed.

(** The bounds kept say the same as the row. *)
Lemma bounds_same r lo hi x : ctor_row cl r = Ok (lo, hi) ->
  lo <= lhs x (m_elements r) <= hi <-> m_min r <= lhs x (m_elements r) <= m_max r.
Proof.
  clear Hcl. intros Hc. destruct (ctor_row_bounds _ _ _ _ Hc) as (L & U & Hr & Hb). specialize (Hr x). lia.
Qed.

(** is_valid_constraint decides satisfaction of the row. *)
Lemma is_valid_constraint_ok x k r : length x = n -> nth_error cs k = Some r ->
  exists b, is_valid_constraint sv k x = Some b /\ (b = true <-> row_satisfied x r).
Proof.
  clear Hcl. intros Hx Hk. destruct (bounds_at k r Hk) as (lo & hi & Hb & Hc). rewrite (is_valid_constraint_value x k r lo hi Hx Hk Hb).
  eexists. split; [reflexivity|]. unfold row_satisfied. rewrite <- (bounds_same r lo hi (as_assignment x) Hc). lia.
Qed.

(** ** The sum after an assignment *)
Lemma lhs_seq x els : lhs x els = fold_right Z.add 0 (map (fun e => f_factor e * bz (x (f_var e))) els).
Proof. induction els as [|e els IH]; cbn; [reflexivity|]. rewrite IH. reflexivity. Qed.

Lemma fold_add_perm (l l' : list Z) : Permutation l l' -> fold_right Z.add 0 l = fold_right Z.add 0 l'.
Proof. induction 1; cbn; lia. Qed.

Lemma combine_seq_nth {A} (l : list A) p i a : In (i, a) (combine (seq p (length l)) l) -> (p <= i)%nat /\ nth_error l (i - p) = Some a.
Proof.
  revert p. induction l as [|b l IH]; intros p H; cbn in H; [destruct H|]. destruct H as [H|H].
  - inversion H; subst. split; [lia|]. rewrite Nat.sub_diag. reflexivity.
  - apply IH in H. destruct H as [H1 H2]. split; [lia|]. replace (i - p)%nat with (S (i - S p)) by lia. exact H2.
Qed.

(** An element of the row through its key. *)
Definition term (x : list bool) (row : list (nat * nat)) (k : nat * Z) : Z :=
  snd k * bz (as_assignment x (snd (nth (fst k) row (0, 0)%nat))).
Lemma lhs_terms x row els : Forall2 row_rel row els ->
  lhs (as_assignment x) els = fold_right Z.add 0 (map (term x row) (combine (seq 0 (length els)) (map f_factor els))).
Proof.
  intros H. rewrite lhs_seq. f_equal.
  assert (Hgen : forall pre, map (fun e => f_factor e * bz (as_assignment x (f_var e))) els
     = map (term x (pre ++ row)) (combine (seq (length pre) (length els)) (map f_factor els))).
  { induction H as [|p e row els Hp HF IH]; intros pre; cbn [map combine seq length]; [reflexivity|]. f_equal.
    - unfold term. cbn [fst snd]. rewrite app_nth2, Nat.sub_diag by lia. cbn [nth]. destruct Hp as (_ & -> & _). reflexivity.
    - specialize (IH (pre ++ [p])). rewrite app_length in IH. cbn [length] in IH. rewrite Nat.add_1_r in IH.
      rewrite <- app_assoc in IH. exact IH. }
  exact (Hgen []).
Qed.

Lemma cols_NoDup row els T : Forall2 row_rel row els -> NoDup (map f_var els) ->
  Permutation (map rkey T) (combine (seq 0 (length els)) (map f_factor els)) -> NoDup (map (col_of row) T).
Proof.
  intros Hrel Hnd Hp.
  assert (E : map (col_of row) T = map (fun k => snd (nth (fst k) row (0, 0)%nat)) (map rkey T)) by (rewrite map_map; reflexivity).
  rewrite E. eapply Permutation_NoDup; [apply Permutation_map, Permutation_sym, Hp|].
  assert (E2 : map (fun k : nat * Z => snd (nth (fst k) row (0, 0)%nat)) (combine (seq 0 (length els)) (map f_factor els)) = map f_var els).
  { clear -Hrel. assert (Hgen : forall pre, map (fun k : nat * Z => snd (nth (fst k) (pre ++ row) (0, 0)%nat)) (combine (seq (length pre) (length els)) (map f_factor els)) = map f_var els).
    { induction Hrel as [|p e row els Hp HF IH]; intros pre; cbn [map combine seq length]; [reflexivity|]. f_equal.
      - cbn [fst]. rewrite app_nth2, Nat.sub_diag by lia. cbn [nth]. destruct Hp as (_ & -> & _). reflexivity.
      - specialize (IH (pre ++ [p])). rewrite app_length in IH. cbn [length] in IH. rewrite Nat.add_1_r in IH.
        rewrite <- app_assoc in IH. exact IH. }
    exact (Hgen []). }
  rewrite E2. assumption.
Qed.

(** Sum over T when the first [t] elements are "up" and the others "down". *)
Lemma split_sum x row T t : (forall e, In e T -> rc_f e = 1 \/ rc_f e = -1) ->
  (forall e, In e (firstn t T) -> nth_error x (col_of row e) = Some (negb (is_negative e))) ->
  (forall e, In e (skipn t T) -> nth_error x (col_of row e) = Some (is_negative e)) ->
  (t <= length T)%nat ->
  fold_right Z.add 0 (map (term x row) (map rkey T)) = Z.of_nat t - Z.of_nat (length (filter is_negative T)).
Proof.
  intros Hf. revert t. induction T as [|e T IH]; intros t Hu Hd Ht; cbn in Ht.
  - cbn. destruct t; [reflexivity|lia].
  - destruct t as [|t].
    + cbn [map fold_right skipn] in *. rewrite (IH ltac:(intros; apply Hf; right; assumption) 0%nat); [|intros e' []| |lia].
      2: { intros e' He'. apply Hd. right. assumption. }
      cbn [filter]. unfold term at 1. unfold rkey. cbn [fst snd].
      pose proof (Hd e (or_introl eq_refl)) as Hxe. unfold col_of in Hxe. apply nth_error_nth with (d := false) in Hxe.
      unfold as_assignment. rewrite Hxe. assert (En : is_negative e = (rc_f e <? 0)) by reflexivity.
      destruct (Hf e (or_introl eq_refl)) as [E|E]; rewrite E in En; cbn [Z.ltb Z.compare] in En; rewrite En, E; cbn [bz length negb]; lia.
    + cbn [map fold_right skipn firstn] in *. rewrite (IH ltac:(intros; apply Hf; right; assumption) t); [| | |lia].
      2: { intros e' He'. apply Hu. right. assumption. } 2: { assumption. }
      cbn [filter]. unfold term at 1. unfold rkey. cbn [fst snd].
      pose proof (Hu e (or_introl eq_refl)) as Hxe. unfold col_of in Hxe. apply nth_error_nth with (d := false) in Hxe.
      unfold as_assignment. rewrite Hxe. assert (En : is_negative e = (rc_f e <? 0)) by reflexivity.
      destruct (Hf e (or_introl eq_refl)) as [E|E]; rewrite E in En; cbn [Z.ltb Z.compare] in En; rewrite En, E; cbn [bz length negb]; lia.
Qed.

Lemma filter_map_length {A B} (f : A -> B) p l : length (filter p (map f l)) = length (filter (fun a => p (f a)) l).
Proof. induction l as [|a l IH]; cbn; [reflexivity|]. destruct (p (f a)); cbn; rewrite IH; reflexivity. Qed.

Lemma negatives_T els T : Permutation (map rkey T) (combine (seq 0 (length els)) (map f_factor els)) ->
  Z.of_nat (length (filter is_negative T)) = negatives els.
Proof.
  intros Hp. unfold negatives. f_equal.
  transitivity (length (filter (fun k : nat * Z => snd k <? 0) (map rkey T))).
  { rewrite filter_map_length. reflexivity. }
  assert (Hpl : forall (p : nat * Z -> bool) l l', Permutation l l' -> length (filter p l) = length (filter p l')).
  { clear. intros p l l' H. induction H; cbn; try (destruct (p x); cbn; lia); try lia.
    destruct (p x), (p y); reflexivity. }
  rewrite (Hpl _ _ _ Hp). clear. generalize 0%nat as q. induction els as [|e els IH]; intros q; cbn; [reflexivity|].
  destruct (f_factor e <? 0); cbn; rewrite IH; reflexivity.
Qed.

(** ** affect *)
Lemma affect_ok k r row t kappa delta (s : state F G) T rest lo hi : nth_error cs k = Some r ->
  mx_row (sv_ap sv) k = Some row -> Forall2 row_rel row (m_elements r) ->
  nth_error (sv_b sv) k = Some (lo, hi) -> ctor_row cl r = Ok (lo, hi) ->
  sized cs n s -> s_R s = T ++ rest ->
  Permutation (map rkey T) (combine (seq 0 (length (m_elements r))) (map f_factor (m_elements r))) ->
  0 <= t <= Z.of_nat (length (m_elements r)) -> lo <= t - negatives (m_elements r) <= hi ->
  exists s' b, affect fo sv k row (t - 1) (length (m_elements r)) kappa delta s = Some (s', b) /\
    sized cs n s' /\ s_g s' = s_g s /\ row_satisfied (s_x s') r /\
    (forall v, ~ In v (map f_var (m_elements r)) -> nth_error (s_x s') v = nth_error (s_x s) v) /\
    s_R s' = s_R s /\ lhs (as_assignment (s_x s')) (m_elements r) = t - negatives (m_elements r) /\
    (forall e, In e (firstn (Z.to_nat t) T) -> nth_error (s_x s') (col_of row e) = Some (negb (is_negative e))) /\
    (forall e, In e (skipn (Z.to_nat t) T) -> nth_error (s_x s') (col_of row e) = Some (is_negative e)).
Proof.
  intros Hk Hrow Hrel Hb Hc (Hsx & HsP & Hspi & HsR) HR HT Ht Hlo.
  destruct (ctor_row_facts _ _ _ _ (not_Z _ Hcl) Hc) as [Hf _].
  destruct (Hrows r (nth_error_In _ _ Hk)) as [Hnd Hvar].
  assert (HlT : length T = length (m_elements r)).
  { apply Permutation_length in HT. rewrite map_length, combine_length, seq_length, map_length, Nat.min_id in HT. assumption. }
  assert (Hidin : forall e, In e T -> (rc_id e < length row)%nat /\ (rc_f e = 1 \/ rc_f e = -1)).
  { intros e He. assert (Hin : In (rkey e) (combine (seq 0 (length (m_elements r))) (map f_factor (m_elements r)))).
    { eapply Permutation_in; [exact HT|]. apply in_map. assumption. }
    rewrite <- (map_length f_factor) in Hin. apply combine_seq_nth in Hin. destruct Hin as [_ Hin]. rewrite Nat.sub_0_r in Hin.
    rewrite nth_error_map in Hin. destruct (nth_error (m_elements r) (rc_id e)) as [fe|] eqn:Ee; [|discriminate].
    cbn in Hin. inversion Hin as [Hfe]. split.
    - rewrite (Forall2_length _ _ _ Hrel). apply nth_error_Some. congruence.
    - specialize (Hf fe (nth_error_In _ _ Ee)). destruct cl; cbn in Hf; auto. }
  pose proof (cols_NoDup row _ T Hrel Hnd HT) as HndT.
  assert (Hrowb : forall p, In p row -> (fst p < elements_number cs)%nat /\ (snd p < n)%nat).
  { intros p Hp. clear -Hrel Hp Hvar. revert Hp. revert Hvar. induction Hrel as [|q e row' els Hq HF IH]; intros Hvar Hp; [destruct Hp|].
    destruct Hp as [<-|Hp]; [|apply IH; [intros; apply Hvar; right; assumption|assumption]].
    destruct Hq as (_ & -> & Hl). split; [assumption|]. apply Hvar. left. reflexivity. }
  assert (Hcols : forall v, ~ In v (map f_var (m_elements r)) -> ~ In v (map (col_of row) T)).
  { intros v Hv Hin. apply Hv. apply in_map_iff in Hin. destruct Hin as (e & <- & He). destruct (Hidin e He) as [Hi _].
    unfold col_of. assert (Hin : In (nth (rc_id e) row (0, 0)%nat) row) by (apply nth_In; assumption).
    revert Hin. generalize (nth (rc_id e) row (0, 0)%nat) as pp. intros pp Hin. clear -Hin Hrel. induction Hrel as [|q fe row' els Hq HF IH]; [destruct Hin|]. destruct Hin as [<-|Hin].
    - left. symmetry. apply Hq.
    - right. apply IH. assumption. }
  assert (Hpi : (k < length (s_pi s))%nat) by (rewrite Hspi; apply nth_error_Some; congruence).
  destruct (nth_error (s_pi s) k) as [old|] eqn:Eold; [|apply nth_error_None in Eold; lia].
  assert (Hfn : forall a b x P up d, (a <= length T)%nat -> (a = b) -> assign_range fo row (s_R s) up d a 0 x P = assign_list row (firstn b T) up d x P).
  { intros a b x P up d Ha <-. rewrite assign_range_list by (rewrite HR, app_length; lia). f_equal. cbn [skipn].
    rewrite HR, firstn_app. replace (a - length T)%nat with 0%nat by lia. cbn. rewrite app_nil_r. reflexivity. }
  assert (Hsn : forall a x P up d, (a <= length T)%nat -> assign_range fo row (s_R s) up d (length (m_elements r) - a) a x P = assign_list row (skipn a T) up d x P).
  { intros a x P up d Ha. rewrite assign_range_list by (rewrite HR, app_length; lia). f_equal. rewrite HR, skipn_app.
    replace (a - length T)%nat with 0%nat by lia. cbn [skipn]. rewrite <- HlT, <- (skipn_length a T).
    rewrite firstn_app, Nat.sub_diag, firstn_all. cbn. rewrite app_nil_r. reflexivity. }
  (* conclusion shared by the three branches *)
  assert (Hfin : forall x P pi, length x = n -> length P = elements_number cs -> length pi = length cs ->
    (forall e, In e (firstn (Z.to_nat t) T) -> nth_error x (col_of row e) = Some (negb (is_negative e))) ->
    (forall e, In e (skipn (Z.to_nat t) T) -> nth_error x (col_of row e) = Some (is_negative e)) ->
    (forall v, ~ In v (map (col_of row) T) -> nth_error x v = nth_error (s_x s) v) ->
    exists s' b, (do ok <- is_valid_constraint sv k x;
      if ok then do new_pi <- nth_error pi k;
        Some (mk_state x P pi (s_R s) (s_g s), xorb (fl_signbit fo old) (fl_signbit fo new_pi)) else None) = Some (s', b) /\
      sized cs n s' /\ s_g s' = s_g s /\ row_satisfied (s_x s') r /\
      (forall v, ~ In v (map f_var (m_elements r)) -> nth_error (s_x s') v = nth_error (s_x s) v) /\
      s_R s' = s_R s /\ lhs (as_assignment (s_x s')) (m_elements r) = t - negatives (m_elements r) /\
      (forall e, In e (firstn (Z.to_nat t) T) -> nth_error (s_x s') (col_of row e) = Some (negb (is_negative e))) /\
      (forall e, In e (skipn (Z.to_nat t) T) -> nth_error (s_x s') (col_of row e) = Some (is_negative e))).
  { intros x P pi Hx HP Hpi' Hu Hd Ho.
    assert (Hsum : lhs (as_assignment x) (m_elements r) = t - negatives (m_elements r)).
    { rewrite (lhs_terms x row _ Hrel). rewrite <- (fold_add_perm _ _ (Permutation_map _ HT)).
      rewrite (split_sum x row T (Z.to_nat t)); [|intros e He; apply (Hidin e He)|assumption|assumption|lia].
      rewrite (negatives_T _ _ HT). lia. }
    rewrite (is_valid_constraint_value x k r lo hi Hx Hk Hb), Hsum. cbn [bind].
    rewrite (proj2 (Z.leb_le _ _)) by lia. rewrite (proj2 (Z.leb_le _ _)) by lia. cbn [andb].
    destruct (nth_error pi k) as [np|] eqn:En; [|apply nth_error_None in En; lia]. cbn [bind].
    eexists _, _. split; [reflexivity|]. cbn [s_x s_g]. split; [unfold sized; cbn; auto|]. split; [reflexivity|]. split.
    - unfold row_satisfied. apply (bounds_same r lo hi _ Hc). lia.
    - split; [intros v Hv; apply Ho; apply Hcols; assumption|]. split; [reflexivity|]. split; [exact Hsum|]. split; assumption. }
  unfold affect. rewrite Eold. cbn [bind].
  assert (Hcap : (0 < length (s_R s))%nat) by (rewrite HsR; apply capacity_pos).
  assert (Hcap2 : (length (m_elements r) <= length (s_R s))%nat) by (rewrite HsR; apply longest_row_in; eapply nth_error_In; eassumption).
  destruct (Z.ltb_spec (t - 1) 0) as [Ht0|Ht0].
  - destruct (nth_error (s_R s) 0) as [r0|] eqn:E0; [|apply nth_error_None in E0; lia]. cbn [bind].
    rewrite (Hfn _ (length T)) by lia. rewrite firstn_all.
    match goal with |- context [assign_list row T false ?d0 _ _] => set (d := d0) end.
    destruct (assign_list_ok row false d T (s_x s) (s_P s)) as (x' & P' & -> & Hl1 & Hl2 & Hin & Hout).
    { intros e He. apply (Hidin e He). } { rewrite Hsx, HsP. exact Hrowb. } { assumption. }
    cbn [bind]. apply Hfin; try lia.
    + replace (Z.to_nat t) with 0%nat by lia. intros e [].
    + replace (Z.to_nat t) with 0%nat by lia. intros e He. rewrite (Hin e He). rewrite Bool.xorb_false_r. reflexivity.
    + assumption.
  - destruct (Z.leb_spec (Z.of_nat (length (m_elements r))) (t - 1 + 1)) as [Htr|Htr].
    + unfold nth_Z. destruct (Z.ltb_spec (t - 1) 0); [lia|].
      destruct (nth_error (s_R s) (Z.to_nat (t - 1))) as [rs|] eqn:Ers; [|apply nth_error_None in Ers; lia]. cbn [bind].
      rewrite (Hfn _ (length T)) by lia. rewrite firstn_all.
      match goal with |- context [assign_list row T true ?d0 _ _] => set (d := d0) end.
      destruct (assign_list_ok row true d T (s_x s) (s_P s)) as (x' & P' & -> & Hl1 & Hl2 & Hin & Hout).
      { intros e He. apply (Hidin e He). } { rewrite Hsx, HsP. exact Hrowb. } { assumption. }
      cbn [bind]. apply Hfin; try lia.
      * intros e He. rewrite (Hin e).
        -- rewrite Bool.xorb_true_r. reflexivity.
        -- rewrite <- (firstn_skipn (Z.to_nat t) T). apply in_or_app. left. assumption.
      * rewrite skipn_all2 by lia. intros e [].
      * assumption.
    + unfold nth_Z. destruct (Z.ltb_spec (t - 1) 0); [lia|]. destruct (Z.ltb_spec (t - 1 + 1) 0); [lia|].
      destruct (nth_error (s_R s) (Z.to_nat (t - 1))) as [rs|] eqn:Ers; [|apply nth_error_None in Ers; lia]. cbn [bind].
      destruct (nth_error (s_R s) (Z.to_nat (t - 1 + 1))) as [rs1|] eqn:Ers1; [|apply nth_error_None in Ers1; lia]. cbn [bind].
      destruct (list_modify_some (s_pi s) k (fun p => fl_add fo p (fl_div fo (fl_add fo (rc_value rs) (rc_value rs1)) (fl_of_Z fo 2))) Hpi) as (p0 & pi' & _ & _ & Hpi').
      rewrite Hpi'. cbn [bind]. pose proof (list_modify_length _ _ _ _ Hpi') as Hlpi.
      replace (t - 1 + 1) with t by lia.
      set (d := fl_add fo delta _).
      rewrite (Hfn _ (Z.to_nat t)) by lia.
      assert (HndA : NoDup (map (col_of row) (firstn (Z.to_nat t) T)) /\ NoDup (map (col_of row) (skipn (Z.to_nat t) T)) /\
         forall v, In v (map (col_of row) (firstn (Z.to_nat t) T)) -> ~ In v (map (col_of row) (skipn (Z.to_nat t) T))).
      { rewrite <- (firstn_skipn (Z.to_nat t) T), map_app in HndT. clear -HndT. revert HndT.
        generalize (map (col_of row) (firstn (Z.to_nat t) T)) (map (col_of row) (skipn (Z.to_nat t) T)). intros a b H.
        induction a as [|q a IH]; cbn in *; [split; [constructor|]; split; [assumption|]; intros v []|].
        inversion H as [|? ? Hni Hnd]; subst. destruct (IH Hnd) as (H1 & H2 & H3). split.
        - constructor; [|assumption]. intros Hin. apply Hni. apply in_or_app. auto.
        - split; [assumption|]. intros v [<-|Hv]; [|apply H3; assumption]. intros Hin. apply Hni. apply in_or_app. auto. }
      destruct HndA as (Hnd1 & Hnd2 & Hdisj).
      destruct (assign_list_ok row true d (firstn (Z.to_nat t) T) (s_x s) (s_P s)) as (x1 & P1 & -> & Hl1 & Hl2 & Hin1 & Hout1).
      { intros e He. apply (Hidin e). rewrite <- (firstn_skipn (Z.to_nat t) T). apply in_or_app. auto. } { rewrite Hsx, HsP. exact Hrowb. } { assumption. }
      cbn [bind]. rewrite Hsn by lia.
      destruct (assign_list_ok row false d (skipn (Z.to_nat t) T) x1 P1) as (x2 & P2 & -> & Hl3 & Hl4 & Hin2 & Hout2).
      { intros e He. apply (Hidin e). rewrite <- (firstn_skipn (Z.to_nat t) T). apply in_or_app. auto. } { rewrite Hl1, Hl2, Hsx, HsP. exact Hrowb. } { assumption. }
      cbn [bind]. apply Hfin; try lia.
      * intros e He. rewrite Hout2 by (apply Hdisj, in_map; assumption). rewrite (Hin1 e He), Bool.xorb_true_r. reflexivity.
      * intros e He. rewrite (Hin2 e He), Bool.xorb_false_r. reflexivity.
      * intros v Hv. rewrite <- (firstn_skipn (Z.to_nat t) T), map_app in Hv.
        rewrite Hout2 by (intros Hin; apply Hv; apply in_or_app; auto).
        apply Hout1. intros Hin; apply Hv; apply in_or_app; auto.
Qed.

(** ** update_row *)
Lemma update_row_ok push kappa delta theta k r s : nth_error cs k = Some r -> row_satisfiable r ->
  buffer_long_enough cs after r -> sized cs n s ->
  exists s' b, update_row fo ro std_sort sv push kappa delta theta k s = Some (s', b) /\
    sized cs n s' /\ row_satisfied (s_x s') r /\
    (forall v, ~ In v (map f_var (m_elements r)) -> nth_error (s_x s') v = nth_error (s_x s) v).
Proof.
  intros Hk [x1 Hx1] Hbuf Hs. pose proof Hs as (Hsx & HsP & Hspi & HsR).
  destruct (row_matches k r Hk) as (row & Hrow & Hrel). destruct (bounds_at k r Hk) as (lo & hi & Hb & Hc).
  destruct (ctor_row_facts _ _ _ _ (not_Z _ Hcl) Hc) as [Hf _].
  destruct (Hrows r (nth_error_In _ _ Hk)) as [Hnd Hvar]. pose proof (Forall2_length _ _ _ Hrel) as Hlen.
  assert (Hln : (length row <= n)%nat).
  { rewrite Hlen, <- (map_length f_var). rewrite <- (seq_length n 0). apply NoDup_incl_length; [assumption|].
    intros v Hv. apply in_map_iff in Hv. destruct Hv as (e & <- & He). apply in_seq. specialize (Hvar e He). lia. }
  assert (Hcap : (length row <= length (s_R s))%nat) by (rewrite HsR, Hlen; apply longest_row_in; eapply nth_error_In; eassumption).
  assert (Hrowb : forall p, In p row -> (fst p < length (s_P s))%nat).
  { rewrite HsP. intros p Hp. clear -Hrel Hp. induction Hrel as [|q e row' els Hq HF IH]; [destruct Hp|].
    destruct Hp as [<-|Hp]; [apply Hq|apply IH; assumption]. }
  unfold update_row. rewrite Hrow. cbn [bind].
  destruct (decrease_ok theta row (s_P s) Hrowb) as (P & HP & HlP). rewrite HP. cbn [bind].
  destruct (reduced_costs_ok (s_x s) P (s_pi s) Hsx ltac:(lia) Hspi row _ Hrel Hvar (s_R s) 0%nat 0) as (new & Hnew & Hkey); [lia|].
  rewrite Hnew. cbn [bind firstn app Nat.add]. rewrite Hlen. rewrite Hlen in Hkey.
  assert (Hlnew : length new = length (m_elements r)).
  { apply (f_equal (@length _)) in Hkey. rewrite map_length, combine_length, seq_length, map_length, Nat.min_id in Hkey. assumption. }
  set (R1 := new ++ skipn (length (m_elements r)) (s_R s)).
  assert (HlR1 : length R1 = longest_row cs) by (unfold R1; rewrite app_length, skipn_length; lia).
  assert (Hpush : exists R2, match push with None => Some R1 | Some amp => push_costs fo sv (s_x s) row amp R1 (length (m_elements r)) 0 end = Some R2 /\
     map rkey R2 = map rkey R1).
  { destruct push as [amp|]; [|eauto]. apply (push_costs_ok (s_x s) row (m_elements r) amp Hsx Hrel Hvar Hln); [lia|].
    intros j e Hj He. unfold R1 in He. rewrite nth_error_app1 in He by lia.
    assert (Hin : In (rkey e) (map rkey new)) by (apply in_map; eapply nth_error_In; eassumption).
    rewrite Hkey in Hin. rewrite <- (map_length f_factor) in Hin. apply combine_seq_nth in Hin. destruct Hin as [_ Hin].
    rewrite Nat.sub_0_r in Hin. assert (Hq : (rc_id e < length (map f_factor (m_elements r)))%nat) by (apply nth_error_Some; congruence).
    rewrite map_length in Hq. lia. }
  destruct Hpush as (R2 & -> & HkR2). cbn [bind].
  assert (HlR2 : length R2 = longest_row cs) by (apply (f_equal (@length _)) in HkR2; rewrite !map_length in HkR2; lia).
  destruct (calculator_sort_perm (sv_mode sv) R2 (length (m_elements r)) (s_g s)) as (T & HT & HpT).
  destruct (calculator_sort fo ro std_sort (sv_mode sv) R2 (length (m_elements r)) (s_g s)) as [R3 g3]. cbn [fst] in HT.
  assert (HTkey : Permutation (map rkey T) (combine (seq 0 (length (m_elements r))) (map f_factor (m_elements r)))).
  { etransitivity; [apply Permutation_map, HpT|]. rewrite <- firstn_map, HkR2. unfold R1. rewrite map_app, firstn_app, map_length, Hlnew, Nat.sub_diag.
    cbn [firstn]. rewrite app_nil_r, Hkey, firstn_all2 by (rewrite combine_length, seq_length, map_length; lia). reflexivity. }
  assert (HlR3 : length R3 = longest_row cs).
  { rewrite HT, app_length, skipn_length. apply Permutation_length in HpT. rewrite HpT, firstn_length_le by lia. lia. }
  unfold bound_min, bound_max. rewrite Hb. cbn [option_map bind fst snd].
  destruct (select_ok R3 r lo hi k g3 x1 Hk Hc (proj2 (bounds_same r lo hi x1 Hc) Hx1) Hbuf HlR3) as (t & g4 & Hsel & Ht & Hlo).
  assert (Hcz : select_variables fo ro sv R3 (length (m_elements r)) (0 + negatives (m_elements r)) lo hi g3 = Some (t - 1, g4)).
  { rewrite <- Hsel. unfold select_variables. replace (sv_class sv) with cl by (destruct mk_fields as (? & ? & _ & _ & -> & _); reflexivity).
    destruct cl; reflexivity. }
  rewrite Hcz. cbn [bind].
  destruct (affect_ok k r row t kappa delta (mk_state (s_x s) P (s_pi s) R3 g4) T (skipn (length (m_elements r)) R2) lo hi
     Hk Hrow Hrel Hb Hc) as (s' & b & Ha & Hsz & _ & Hsat & Hout & _); try assumption.
  { unfold sized. cbn. repeat split; lia. }
  exists s', b. split; [exact Ha|]. auto.
Qed.

Lemma initial_sized : length x0 = n -> sized cs n s0.
Proof.
  intros Hx. destruct mk_fields as (? & ? & _ & _ & _ & ->). unfold sized. cbn. rewrite !repeat_length. auto.
Qed.
End Solver.
End Proofs.
