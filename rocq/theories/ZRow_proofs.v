From Coq Require Import Permutation.
From Verif Require Import Base Problem_model Problem_spec Merged_model Merged_spec Classify_model Classify_spec Classify_proofs
  Matrix_model Rows_model Rows_spec Rows_proofs Solver_spec Subsolver_model Subsolver_spec Subsolver_proofs
  BranchBound_model BranchBound_spec BranchBound_proofs ZRow_model ZRow_spec.
Open Scope Z_scope.

(** ** The kind of a row *)
Definition exhaustive_kind (z : zkind) : bool := match z with k_exhaustive | k_unconstrained_exhaustive => true | _ => false end.
Definition small_unit (e : felem) : bool := (-1 <=? f_factor e) && (f_factor e <=? 1).
Lemma z_kind_facts r lo hi : ctor_inequalities_Z r = Ok (lo, hi) ->
  (forall e, In e (m_elements r) -> f_factor e <> 0) /\ lo <= hi /\
  (forall v, sum_neg (m_elements r) <= v <= sum_pos (m_elements r) -> (lo <= v <= hi <-> allowed r v)) /\
  match z_kind r with
  | k_linear => unit_row r
  | k_exhaustive => ~ unit_row r /\ (0 < length (m_elements r))%nat
  | k_unconstrained_exhaustive => ~ unit_row r /\ (0 < length (m_elements r) < 10)%nat /\ m_min r <> m_max r /\
      (m_min r <= sum_neg (m_elements r) \/ sum_pos (m_elements r) <= m_max r)
  | k_branch_and_bound | k_unconstrained_branch_and_bound => ~ unit_row r /\ (10 <= length (m_elements r))%nat
  end.
Proof.
  intros H. unfold ctor_inequalities_Z, ensures in H. destruct (forallb _ _) eqn:E0; [|discriminate].
  assert (Hnz : forall e, In e (m_elements r) -> f_factor e <> 0).
  { intros e He. rewrite forallb_forall in E0. specialize (E0 e He). destruct (Z.eqb_spec (f_factor e) 0); [discriminate|assumption]. }
  split; [exact Hnz|].
  assert (Hb : lo <= hi /\ (forall v, sum_neg (m_elements r) <= v <= sum_pos (m_elements r) -> (lo <= v <= hi <-> allowed r v))).
  { unfold allowed. destruct (Z.eqb_spec (m_min r) (m_max r)); cbn [fst snd] in H.
    - destruct (Z.leb_spec (m_min r) (m_max r)); [|discriminate]. inversion H; subst. split; [lia|]. intros v Hv. lia.
    - destruct (Z.leb_spec (Z.max (sum_neg (m_elements r)) (m_min r)) (Z.min (sum_pos (m_elements r)) (m_max r))); [|discriminate].
      inversion H; subst. split; [lia|]. intros v Hv. lia. }
  destruct Hb as [Hb1 Hb2]. split; [exact Hb1|]. split; [exact Hb2|].
  unfold z_kind. destruct (forallb (fun e => (-1 <=? f_factor e) && (f_factor e <=? 1)) (m_elements r)) eqn:E.
  - assert (Hu : unit_row r).
    { intros e He. rewrite forallb_forall in E. specialize (E e He). specialize (Hnz e He). apply andb_prop in E. destruct E as [E1 E2].
      apply Z.leb_le in E1, E2. lia. }
    destruct (m_min r =? m_max r); [assumption|]. destruct ((m_min r <=? sum_neg _) || (sum_pos _ <=? m_max r)); assumption.
  - assert (Hu : ~ unit_row r /\ (0 < length (m_elements r))%nat).
    { split.
      - intros Hu. assert (forallb (fun e => (-1 <=? f_factor e) && (f_factor e <=? 1)) (m_elements r) = true); [|congruence].
        apply forallb_forall. intros e He. destruct (Hu e He) as [-> | ->]; reflexivity.
      - destruct (m_elements r); [discriminate|cbn; lia]. }
    destruct Hu as [Hu Hl]. destruct (Nat.ltb_spec (length (m_elements r)) 10).
    + destruct (Z.eqb_spec (m_min r) (m_max r)); [auto|].
      destruct ((m_min r <=? sum_neg _) || (sum_pos _ <=? m_max r)) eqn:E1; [|auto].
      apply orb_prop in E1. rewrite !Z.leb_le in E1. auto.
    + destruct (m_min r =? m_max r); [auto|]. destruct ((m_min r <=? sum_neg _) || (sum_pos _ <=? m_max r)); auto.
Qed.

(** ** The tables *)
Lemma build_tables_ok : forall cs bs k ex done ex',
  build_tables k cs bs ex = Some ex' -> length bs = length cs -> ex_inv ex done -> (forall r, In r done -> (x_k r < k)%nat) ->
  (forall c, In c cs -> exhaustive_kind (z_kind c) = true -> (0 < length (m_elements c))%nat) ->
  exists done', ex_inv ex' done' /\ incl done done' /\
    forall j c lo hi, nth_error cs j = Some c -> nth_error bs j = Some (lo, hi) -> exhaustive_kind (z_kind c) = true ->
      In (mk_xrow (k + j) (m_elements c) lo hi) done'.
Proof.
  induction cs as [|c cs IH]; intros [|[lo hi] bs] k ex done ex' H Hl Hinv Hlt Hpos; try discriminate.
  - cbn in H. inversion H; subst. exists done. split; [assumption|]. split; [apply incl_refl|]. intros [|j]; discriminate.
  - cbn [build_tables] in H. cbn [length] in Hl.
    destruct (exhaustive_kind (z_kind c)) eqn:Ek.
    + assert (Hb : exists ex1, ex_build ex k (m_elements c) lo hi = Some ex1 /\ build_tables (S k) cs bs ex1 = Some ex').
      { destruct (z_kind c); try discriminate; (destruct (ex_build ex k (m_elements c) lo hi) as [ex1|]; cbn [bind] in H; [eauto|discriminate]). }
      destruct Hb as (ex1 & E1 & E2).
      destruct (ex_build_ok ex done (mk_xrow k (m_elements c) lo hi) Hinv) as (sols & _ & _ & Hm).
      { cbn. intros Hin. apply in_map_iff in Hin. destruct Hin as (r & Hr1 & Hr2). specialize (Hlt r Hr2). lia. }
      { cbn. apply Hpos; [left; reflexivity|assumption]. }
      cbn [x_k x_elements x_lo x_hi] in Hm. rewrite E1 in Hm. destruct Hm as [_ Hinv1].
      destruct (IH bs (S k) ex1 _ ex' E2 ltac:(lia) Hinv1) as (done' & Hi & Hincl & Hall).
      { intros r Hr. apply in_app_or in Hr. destruct Hr as [Hr|[<-|[]]]; [specialize (Hlt r Hr); lia|cbn; lia]. }
      { intros d Hd. apply Hpos. right. assumption. }
      exists done'. split; [assumption|]. split; [intros r Hr; apply Hincl, in_or_app; auto|].
      intros [|j] d l h Hj Hbj Hk; cbn in Hj, Hbj.
      * inversion Hj; inversion Hbj; subst. rewrite Nat.add_0_r. apply Hincl, in_or_app. right. left. reflexivity.
      * rewrite <- Nat.add_succ_comm. eapply Hall; eassumption.
    + assert (Hb : build_tables (S k) cs bs ex = Some ex') by (destruct (z_kind c); try discriminate; exact H).
      destruct (IH bs (S k) ex done ex' Hb ltac:(lia) Hinv) as (done' & Hi & Hincl & Hall).
      { intros r Hr. specialize (Hlt r Hr). lia. } { intros d Hd. apply Hpos. right. assumption. }
      exists done'. split; [assumption|]. split; [assumption|].
      intros [|j] d l h Hj Hbj Hk; cbn in Hj, Hbj.
      * inversion Hj; subst. congruence.
      * rewrite <- Nat.add_succ_comm. eapply Hall; eassumption.
Qed.

(** ** Prefix sums *)
Lemma sum_factors_app {F} (a b : list (rc F)) : sum_factors (a ++ b) = sum_factors a + sum_factors b.
Proof. induction a as [|e a IH]; cbn; [reflexivity|]. rewrite IH. lia. Qed.
Lemma unit_prefix {F} (T : list (rc F)) : (forall e, In e T -> rc_f e = 1 \/ rc_f e = -1) ->
  forall v, 0 <= v <= sum_factors T \/ sum_factors T <= v <= 0 ->
  exists t, (t <= length T)%nat /\ sum_factors (firstn t T) = v.
Proof.
  induction T as [|e T IH]; intros Hu v Hv.
  - exists 0%nat. cbn in *. split; lia.
  - destruct (Z.eq_dec v 0) as [->|Hne]; [exists 0%nat; split; [lia|reflexivity]|].
    cbn [sum_factors] in Hv. destruct (IH (fun x Hx => Hu x (or_intror Hx)) (v - rc_f e)) as (t & Ht & Es).
    { destruct (Hu e (or_introl eq_refl)) as [Ee|Ee]; rewrite Ee in *; lia. }
    exists (S t). cbn. split; [lia|]. lia.
Qed.

Section Proofs.
Context {F G : Type} (fo : fops F) (ro : rops G)
        (std_sort : forall A : Type, (A -> A -> bool) -> list A -> list A) (init_z : F).
Hypothesis Hperm : permutes std_sort.
Hypothesis Hsort : sorts std_sort.
Hypothesis Hw : weak_order (fl_lt fo).
Hypothesis Hshuf : shuffles ro.

(** ** Selection *)
Lemma zselect_ok mode (L : list (rc F)) lo hi : forall n i sum best,
  -1 <= i -> sum = sum_factors (firstn (Z.to_nat (i + 1)) L) -> (Z.to_nat (i + 1) + n <= length L)%nat ->
  best = -2 \/ (-1 <= best < i /\ lo <= selected_value L best <= hi) ->
  exists b, zselect fo mode L n i sum best lo hi = Some b /\
    ((b = -2 /\ best = -2 /\ forall t, i <= t < i + Z.of_nat n -> ~ lo <= selected_value L t <= hi) \/
     (-1 <= b < i + Z.of_nat n /\ lo <= selected_value L b <= hi)).
Proof.
  induction n as [|n IH]; intros i sum best Hi Hs Hl Hb; cbn [zselect].
  - exists best. split; [reflexivity|]. destruct Hb as [->|Hb]; [left|right; lia].
    split; [reflexivity|]. split; [reflexivity|]. intros t Ht. lia.
  - set (best' := if (lo <=? sum) && (sum <=? hi) then i else best).
    assert (Hb' : (best' = -2 /\ best = -2 /\ ~ lo <= selected_value L i <= hi) \/ (-1 <= best' < i + 1 /\ lo <= selected_value L best' <= hi)).
    { unfold best'. destruct ((lo <=? sum) && (sum <=? hi)) eqn:E.
      - right. split; [lia|]. unfold selected_value. rewrite <- Hs. lia.
      - destruct Hb as [->|Hb]; [left|right; lia]. split; [reflexivity|]. split; [reflexivity|]. unfold selected_value. rewrite <- Hs. lia. }
    unfold nth_Z. destruct (Z.ltb_spec (i + 1) 0); [lia|].
    destruct (nth_error L (Z.to_nat (i + 1))) as [e|] eqn:E; [|apply nth_error_None in E; lia]. cbn [bind].
    destruct (negb (best' =? -2) && zstop fo mode (rc_value e)) eqn:Est.
    + exists best'. split; [reflexivity|]. destruct Hb' as [(E2 & _)|Hb']; [rewrite E2 in Est; discriminate|]. right. lia.
    + destruct (IH (i + 1) (sum + rc_f e) best') as (b & Hz & Hbb); [lia| |lia| |].
      * replace (Z.to_nat (i + 1 + 1)) with (S (Z.to_nat (i + 1))) by lia.
        assert (Hf : firstn (S (Z.to_nat (i + 1))) L = firstn (Z.to_nat (i + 1)) L ++ [e]).
        { clear -E. revert E. generalize (Z.to_nat (i + 1)) as m. induction L as [|a L IH]; intros [|m] E; cbn in *; try discriminate; [inversion E; reflexivity|].
          f_equal. apply IH. assumption. }
        rewrite Hf, sum_factors_app. cbn. lia.
      * destruct Hb' as [(-> & _)|Hb']; [left; reflexivity|right; assumption].
      * exists b. split; [exact Hz|]. destruct Hbb as [(-> & E2 & Hno)|Hbb]; [|right; lia].
        destruct Hb' as [(_ & E3 & Hni)|Hb']; [|lia]. left. split; [reflexivity|]. split; [assumption|].
        intros t Ht. destruct (Z.eq_dec t i) as [->|]; [assumption|]. apply Hno. lia.
Qed.

(** ** The solver built by the constructor *)
Section Solver.
Variables (cs : list merged) (n : nat) (c : nat -> list bool -> option F)
          (mode : objective_type) (after : list (rc F)) (x0 : list bool) (g0 : G) (zs : zsolver F) (s0 : state F G).
Hypothesis Hzmk : make_zsolver fo cs n c mode after x0 g0 = Ok (zs, s0).
Hypothesis Hrows : forall r, In r cs -> row_ok n r.
Hypothesis Hcost : cost_defined n c.
Notation sv := (zs_sv zs).
Notation row_rel := (row_rel cs sv).

Lemma zmk_fields : make_solver fo S_inequalities_Z cs n c mode after x0 g0 = Ok (sv, s0) /\
  zs_kind zs = map z_kind cs /\ build_tables 0 cs (sv_b sv) ex_new = Some (zs_ex zs).
Proof.
  unfold make_zsolver in Hzmk. destruct (make_solver fo S_inequalities_Z cs n c mode after x0 g0) as [[sv s]| |] eqn:E; cbn in Hzmk; try discriminate.
  destruct (build_tables 0 cs (sv_b sv) ex_new) as [ex|] eqn:Eb; cbn in Hzmk; [|discriminate]. inversion Hzmk; subst. cbn. auto.
Qed.
Lemma Hmk : make_solver fo S_inequalities_Z cs n c mode after x0 g0 = Ok (sv, s0).
Proof. apply zmk_fields. Qed.

Lemma zfields : sv_class sv = S_inequalities_Z /\ sv_c sv = c /\ sv_mode sv = mode /\ sv_after sv = after /\ length (sv_b sv) = length cs.
Proof.
  destruct (mk_fields fo S_inequalities_Z cs n c mode after x0 g0 sv s0 Hmk) as (ap & b & _ & Hb & Hsv & _). rewrite Hsv. cbn.
  repeat split; auto. eapply ctor_rows_length. exact Hb.
Qed.

Lemma tabled k r lo hi : nth_error cs k = Some r -> nth_error (sv_b sv) k = Some (lo, hi) -> exhaustive_kind (z_kind r) = true ->
  row_tabled (zs_ex zs) (mk_xrow k (m_elements r) lo hi).
Proof.
  intros Hk Hb He. destruct zmk_fields as (_ & _ & Hbt). destruct zfields as (_ & _ & _ & _ & Hl).
  destruct (build_tables_ok cs (sv_b sv) 0 ex_new [] (zs_ex zs) Hbt Hl ex_new_inv) as (done & (_ & Hi & _) & _ & Hall).
  - intros q [].
  - intros q Hq Hkq. apply In_nth_error in Hq. destruct Hq as [j Hj].
    destruct (bounds_at fo S_inequalities_Z cs n c mode after x0 g0 sv s0 Hmk j q Hj) as (l & h & _ & Hc).
    destruct (z_kind_facts q l h Hc) as (_ & _ & _ & Hf). destruct (z_kind q); try discriminate; lia.
  - apply Hi. exact (Hall k r lo hi Hk Hb He).
Qed.

(** ** Reduced costs *)
Lemma zsum_column_ok P pi l : forall a, length P = elements_number cs -> length pi = length cs ->
  (forall p, In p l -> (fst p < elements_number cs)%nat /\ (snd p < length cs)%nat /\ exists f, factor sv (fst p) = Some f) ->
  exists u, zsum_column fo sv P pi l a = Some u.
Proof.
  induction l as [|[slot row] l IH]; intros a HP Hpi Hl; cbn [zsum_column]; [eauto|].
  destruct (Hl (slot, row) (or_introl eq_refl)) as (Hs & Hr & f & Hf). cbn [fst snd] in *.
  destruct (nth_error pi row) as [q|] eqn:Eq; [|apply nth_error_None in Eq; lia].
  destruct (nth_error P slot) as [p|] eqn:Ep; [|apply nth_error_None in Ep; lia]. cbn [bind].
  rewrite Hf. cbn [bind]. apply IH; try assumption. intros q' Hq'. apply Hl. right. assumption.
Qed.
Lemma zreduced_cost_ok x P pi v : (v < n)%nat -> length x = n -> length P = elements_number cs -> length pi = length cs ->
  exists f, zreduced_cost fo sv x P pi v = Some f.
Proof.
  intros Hv Hx HP Hpi. unfold zreduced_cost.
  destruct (column_ok fo S_inequalities_Z cs n c mode after x0 g0 sv s0 Hmk Hrows v Hv) as (l & -> & Hl). cbn [bind].
  destruct (zsum_column_ok P pi l (fl_of_Z fo 0) HP Hpi Hl) as (u & ->). cbn [bind].
  destruct zfields as (_ & Ec & _). rewrite Ec. destruct (Hcost v x Hv Hx) as [f ->]. cbn [bind]. eauto.
Qed.
Lemma zreduced_costs_ok x P pi : length x = n -> length P = elements_number cs -> length pi = length cs ->
  forall row els, Forall2 row_rel row els -> (forall e, In e els -> (f_var e < n)%nat) ->
  forall R r, (r + length row <= length R)%nat ->
  exists new, zreduced_costs fo sv x P pi row R r = Some (firstn r R ++ new ++ skipn (r + length row) R, (r + length row)%nat) /\
    map rkey new = combine (seq r (length row)) (map f_factor els).
Proof.
  intros Hx HP Hpi row els H. induction H as [|[slot col] e row els Hr HF IH]; intros Hv R r Hl; cbn [zreduced_costs length].
  - exists []. rewrite Nat.add_0_r. cbn [app]. rewrite firstn_skipn. split; reflexivity.
  - destruct Hr as (Hfac & Hcol & Hslot). cbn [fst snd] in *. subst col.
    assert (Hve : (f_var e < n)%nat) by (apply Hv; left; reflexivity).
    destruct (zreduced_cost_ok x P pi (f_var e) Hve Hx HP Hpi) as (v & ->). cbn [bind]. rewrite Hfac. cbn [bind].
    set (el := mk_rc _ _ _). cbn [length] in Hl.
    destruct (list_upd_some R r el) as [R' HR']; [lia|]. rewrite HR'. cbn [bind].
    pose proof (list_upd_length _ _ _ _ HR') as HlR.
    destruct (IH (fun e' He' => Hv e' (or_intror He')) R' (S r)) as (new & Hnew & Hkey); [lia|].
    exists (el :: new). split.
    + rewrite Hnew. pose proof (list_upd_firstn_skipn _ _ _ _ HR') as E.
      assert (Hlf : length (firstn r R) = r) by (apply firstn_length_le; lia).
      assert (E1 : firstn (S r) R' = firstn r R ++ [el]).
      { rewrite E. replace (S r) with (length (firstn r R) + 1)%nat by lia. rewrite firstn_app_2. cbn. reflexivity. }
      assert (E2 : skipn (S r + length row) R' = skipn (r + S (length row)) R).
      { rewrite E. rewrite skipn_app, Hlf. rewrite skipn_all2 by lia. cbn [app].
        replace (S r + length row - r)%nat with (S (length row)) by lia. cbn [skipn].
        change (match R with [] => [] | _ :: l0 => skipn r l0 end) with (skipn (S r) R).
        rewrite skipn_skipn'. f_equal. lia. }
      rewrite E1, E2, <- app_assoc, Nat.add_succ_r. reflexivity.
    + cbn [map seq combine]. f_equal. exact Hkey.
Qed.

(** ** Assignment *)
Fixpoint zassign_list (row : list (nat * nat)) (T : list (rc F)) (pi : list F) (one : bool) (d : F) (x : list bool) (P : list F)
  : option (list bool * list F) :=
  match T with
  | [] => Some (x, P)
  | e :: T' =>
    do (x', P') <- zassign fo sv row [e] pi one d 1 0 x P;
    zassign_list row T' pi one d x' P'
  end.
Lemma zassign_range_list row R pi one d m : forall i x P, (i + m <= length R)%nat ->
  zassign fo sv row R pi one d m i x P = zassign_list row (firstn m (skipn i R)) pi one d x P.
Proof.
  induction m as [|m IH]; intros i x P Hl; [reflexivity|]. cbn [zassign firstn].
  destruct (nth_error R i) as [e|] eqn:E; [|apply nth_error_None in E; lia].
  assert (Hs : skipn i R = e :: skipn (S i) R).
  { clear -E. revert i E. induction R as [|a R IH]; intros [|i] E; cbn in *; try discriminate; [inversion E; reflexivity|].
    apply IH in E. destruct R; exact E. }
  rewrite Hs. cbn [zassign_list zassign nth_error bind]. destruct (nth_error row (rc_id e)) as [[slot col]|]; cbn [bind]; [|reflexivity].
  destruct (list_upd x col _); cbn [bind]; [|reflexivity]. destruct (list_modify P slot _); cbn [bind]; [|reflexivity].
  destruct (zreduced_cost _ _ _ _ _ _); cbn [bind]; [|reflexivity].
  match goal with |- context [bind ?a _] => destruct a; cbn [bind]; [|reflexivity] end. apply IH. lia.
Qed.
Lemma zassign_one row pi one d e x P : (rc_id e < length row)%nat ->
  (forall p, In p row -> (fst p < elements_number cs)%nat /\ (snd p < n)%nat) ->
  length x = n -> length P = elements_number cs -> length pi = length cs ->
  exists x' P', zassign fo sv row [e] pi one d 1 0 x P = Some (x', P') /\ length x' = n /\ length P' = elements_number cs /\
    list_upd x (col_of row e) one = Some x'.
Proof.
  intros Hi Hb Hx HP Hpi. cbn [zassign nth_error bind].
  assert (Hn : nth_error row (rc_id e) = Some (nth (rc_id e) row (0, 0)%nat)) by (apply nth_error_nth'; assumption).
  destruct (nth (rc_id e) row (0, 0)%nat) as [slot col] eqn:En.
  assert (Hc : col_of row e = col) by (unfold col_of; rewrite En; reflexivity). rewrite Hc.
  rewrite Hn. cbn [bind]. destruct (Hb (slot, col)) as [Hs Hcol]; [eapply nth_error_In; eassumption|]. cbn [fst snd] in *.
  destruct (list_upd_some x col one) as [x1 Hx1]; [lia|]. rewrite Hx1. cbn [bind].
  pose proof (list_upd_length _ _ _ _ Hx1) as Hlx.
  destruct (list_modify_some P slot (fun p => if one then fl_add fo p d else fl_sub fo p d)) as (a & P1 & _ & _ & HP1); [lia|].
  rewrite HP1. cbn [bind]. pose proof (list_modify_length _ _ _ _ HP1) as HlP.
  destruct (zreduced_cost_ok x1 P1 pi col Hcol) as (rp & ->); try lia. cbn [bind].
  match goal with |- context [bind ?q _] => assert (Hq : exists P2, q = Some P2 /\ length P2 = length P1) end.
  { destruct one.
    - destruct (_ || _); [|eauto].
      destruct (list_modify_some P1 slot (fun p => fl_add fo (fl_sub fo p rp) d)) as (a2 & P2 & _ & _ & HP2); [lia|].
      exists P2. split; [exact HP2|]. eapply list_modify_length; eassumption.
    - destruct (_ || _); [|eauto].
      destruct (list_modify_some P1 slot (fun p => fl_sub fo (fl_add fo p rp) d)) as (a2 & P2 & _ & _ & HP2); [lia|].
      exists P2. split; [exact HP2|]. eapply list_modify_length; eassumption. }
  destruct Hq as (P2 & -> & HlP2). cbn [bind]. exists x1, P2. split; [reflexivity|]. split; [lia|]. split; [lia|]. reflexivity.
Qed.
Lemma zassign_list_ok row pi one d T : (forall p, In p row -> (fst p < elements_number cs)%nat /\ (snd p < n)%nat) ->
  length pi = length cs -> (forall e, In e T -> (rc_id e < length row)%nat) -> NoDup (map (col_of row) T) ->
  forall x P, length x = n -> length P = elements_number cs ->
  exists x' P', zassign_list row T pi one d x P = Some (x', P') /\ length x' = n /\ length P' = elements_number cs /\
    (forall e, In e T -> nth_error x' (col_of row e) = Some one) /\
    (forall v, ~ In v (map (col_of row) T) -> nth_error x' v = nth_error x v).
Proof.
  intros Hb Hpi. induction T as [|e T IH]; intros Hid Hnd x P Hx HP; cbn [zassign_list].
  - exists x, P. repeat split; auto. intros e [].
  - destruct (zassign_one row pi one d e x P (Hid e (or_introl eq_refl)) Hb Hx HP Hpi) as (x1 & P1 & -> & Hx1 & HP1 & Hu). cbn [bind].
    cbn [map] in Hnd. inversion Hnd as [|? ? Hni Hnd']; subst.
    destruct (IH (fun e' He' => Hid e' (or_intror He')) Hnd' x1 P1 Hx1 HP1) as (x' & P' & -> & Hl1 & Hl2 & Hin & Hout).
    exists x', P'. split; [reflexivity|]. split; [assumption|]. split; [assumption|]. split.
    + intros e' [<-|He'].
      * rewrite Hout by assumption. rewrite (list_upd_nth _ _ _ _ _ Hu), Nat.eqb_refl. reflexivity.
      * apply Hin. assumption.
    + intros v Hv. cbn [map In] in Hv. rewrite Hout by tauto. rewrite (list_upd_nth _ _ _ _ _ Hu).
      destruct (Nat.eqb_spec v (col_of row e)) as [->|]; [tauto|reflexivity].
Qed.

(** ** The left-hand side through the reduced costs *)
Definition zterm (x : assignment) (row : list (nat * nat)) (k : nat * Z) : Z := snd k * bz (x (snd (nth (fst k) row (0, 0)%nat))).
Lemma zlhs_terms x row els : Forall2 row_rel row els ->
  lhs x els = fold_right Z.add 0 (map (zterm x row) (combine (seq 0 (length els)) (map f_factor els))).
Proof.
  intros H. rewrite lhs_seq. f_equal.
  assert (Hgen : forall pre, map (fun e => f_factor e * bz (x (f_var e))) els
     = map (zterm x (pre ++ row)) (combine (seq (length pre) (length els)) (map f_factor els))).
  { induction H as [|p e row els Hp HF IH]; intros pre; cbn [map combine seq length]; [reflexivity|]. f_equal.
    - unfold zterm. cbn [fst snd]. rewrite app_nth2, Nat.sub_diag by lia. cbn [nth]. destruct Hp as (_ & -> & _). reflexivity.
    - specialize (IH (pre ++ [p])). rewrite app_length in IH. cbn [length] in IH. rewrite Nat.add_1_r in IH.
      rewrite <- app_assoc in IH. exact IH. }
  exact (Hgen []).
Qed.
Lemma lhs_chosen x row els (T : list (rc F)) : Forall2 row_rel row els ->
  Permutation (map rkey T) (combine (seq 0 (length els)) (map f_factor els)) ->
  lhs x els = sum_factors (chosen T (map (fun e => x (col_of row e)) T)).
Proof.
  intros Hrel HT. rewrite (zlhs_terms x row els Hrel), <- (fold_add_perm _ _ (Permutation_map (zterm x row) HT)).
  clear. induction T as [|e T IH]; cbn [map fold_right chosen]; [reflexivity|]. rewrite IH.
  unfold zterm at 1, rkey, col_of. cbn [fst snd]. destruct (x (snd (nth (rc_id e) row (0, 0)%nat))); cbn [sum_factors bz]; lia.
Qed.
Lemma sum_factors_total row els (T : list (rc F)) : Forall2 row_rel row els ->
  Permutation (map rkey T) (combine (seq 0 (length els)) (map f_factor els)) -> lhs (fun _ => true) els = sum_factors T.
Proof.
  intros Hrel HT. rewrite (lhs_chosen (fun _ => true) row els T Hrel HT). f_equal. clear. induction T as [|e T IH]; cbn; [reflexivity|]. f_equal. exact IH.
Qed.

(** ** affect *)
Lemma zaffect_ok k r row sel kappa delta (s : state F G) T rest lo hi : nth_error cs k = Some r ->
  mx_row (sv_ap sv) k = Some row -> Forall2 row_rel row (m_elements r) ->
  nth_error (sv_b sv) k = Some (lo, hi) -> ctor_inequalities_Z r = Ok (lo, hi) ->
  sized cs n s -> s_R s = T ++ rest -> buffer_one_more cs after r ->
  Permutation (map rkey T) (combine (seq 0 (length (m_elements r))) (map f_factor (m_elements r))) ->
  -1 <= sel <= Z.of_nat (length (m_elements r)) -> lo <= selected_value T sel <= hi ->
  exists s' b, zaffect fo sv k row sel (length (m_elements r)) kappa delta s = Some (s', b) /\
    sized cs n s' /\ s_g s' = s_g s /\ row_satisfied (s_x s') r /\
    (forall v, ~ In v (map f_var (m_elements r)) -> nth_error (s_x s') v = nth_error (s_x s) v) /\
    (forall e, In e (firstn (Z.to_nat (sel + 1)) T) -> nth_error (s_x s') (col_of row e) = Some true) /\
    (forall e, In e (skipn (Z.to_nat (sel + 1)) T) -> nth_error (s_x s') (col_of row e) = Some false).
Proof.
  intros Hk Hrow Hrel Hb Hc (Hsx & HsP & Hspi & HsR) HR Hbuf HT Ht Hlo.
  destruct (z_kind_facts r lo hi Hc) as (_ & _ & Hsame & _).
  destruct (Hrows r (nth_error_In _ _ Hk)) as [Hnd Hvar].
  assert (HlT : length T = length (m_elements r)).
  { apply Permutation_length in HT. rewrite map_length, combine_length, seq_length, map_length, Nat.min_id in HT. assumption. }
  assert (Hidin : forall e, In e T -> (rc_id e < length row)%nat).
  { intros e He. assert (Hin : In (rkey e) (combine (seq 0 (length (m_elements r))) (map f_factor (m_elements r)))).
    { eapply Permutation_in; [exact HT|]. apply in_map. assumption. }
    rewrite <- (map_length f_factor) in Hin. apply combine_seq_nth in Hin. destruct Hin as [_ Hin]. rewrite Nat.sub_0_r in Hin.
    rewrite nth_error_map in Hin. destruct (nth_error (m_elements r) (rc_id e)) as [fe|] eqn:Ee; [|discriminate].
    rewrite (Forall2_length _ _ _ Hrel). apply nth_error_Some. congruence. }
  pose proof (cols_NoDup cs sv row _ T Hrel Hnd HT) as HndT.
  assert (Hrowb : forall p, In p row -> (fst p < elements_number cs)%nat /\ (snd p < n)%nat).
  { intros p Hp. clear -Hrel Hp Hvar. revert Hp. revert Hvar. induction Hrel as [|q e row' els Hq HF IH]; intros Hvar Hp; [destruct Hp|].
    destruct Hp as [<-|Hp]; [|apply IH; [intros; apply Hvar; right; assumption|assumption]].
    destruct Hq as (_ & -> & Hl). split; [assumption|]. apply Hvar. left. reflexivity. }
  assert (Hcols : forall v, ~ In v (map f_var (m_elements r)) -> ~ In v (map (col_of row) T)).
  { intros v Hv Hin. apply Hv. apply in_map_iff in Hin. destruct Hin as (e & <- & He). pose proof (Hidin e He) as Hi.
    unfold col_of. assert (Hin : In (nth (rc_id e) row (0, 0)%nat) row) by (apply nth_In; assumption).
    revert Hin. generalize (nth (rc_id e) row (0, 0)%nat) as pp. intros pp Hin. clear -Hin Hrel. induction Hrel as [|q fe row' els Hq HF IH]; [destruct Hin|]. destruct Hin as [<-|Hin].
    - left. symmetry. apply Hq.
    - right. apply IH. assumption. }
  assert (Hpi : (k < length (s_pi s))%nat) by (rewrite Hspi; apply nth_error_Some; congruence).
  destruct (nth_error (s_pi s) k) as [old|] eqn:Eold; [|apply nth_error_None in Eold; lia].
  set (t := Z.to_nat (sel + 1)).
  assert (Hfn : forall a x P pi one d, (a <= length T)%nat -> zassign fo sv row (s_R s) pi one d a 0 x P = zassign_list row (firstn a T) pi one d x P).
  { intros a x P pi one d Ha. rewrite zassign_range_list by (rewrite HR, app_length; lia). f_equal. cbn [skipn].
    rewrite HR, firstn_app. replace (a - length T)%nat with 0%nat by lia. cbn. rewrite app_nil_r. reflexivity. }
  assert (Hsn : forall a x P pi one d, (a <= length T)%nat -> zassign fo sv row (s_R s) pi one d (length (m_elements r) - a) a x P = zassign_list row (skipn a T) pi one d x P).
  { intros a x P pi one d Ha. rewrite zassign_range_list by (rewrite HR, app_length; lia). f_equal. rewrite HR, skipn_app.
    replace (a - length T)%nat with 0%nat by lia. cbn [skipn]. rewrite <- HlT, <- (skipn_length a T).
    rewrite firstn_app, Nat.sub_diag, firstn_all. cbn. rewrite app_nil_r. reflexivity. }
  (* conclusion shared by the three branches *)
  assert (Hfin : forall x P pi, length x = n -> length P = elements_number cs -> length pi = length cs ->
    (forall e, In e (firstn t T) -> nth_error x (col_of row e) = Some true) ->
    (forall e, In e (skipn t T) -> nth_error x (col_of row e) = Some false) ->
    (forall v, ~ In v (map (col_of row) T) -> nth_error x v = nth_error (s_x s) v) ->
    exists s' b, (do ok <- is_valid_constraint sv k x;
      if ok then do new_pi <- nth_error pi k;
        Some (mk_state x P pi (s_R s) (s_g s), xorb (fl_signbit fo old) (fl_signbit fo new_pi)) else None) = Some (s', b) /\
      sized cs n s' /\ s_g s' = s_g s /\ row_satisfied (s_x s') r /\
      (forall v, ~ In v (map f_var (m_elements r)) -> nth_error (s_x s') v = nth_error (s_x s) v) /\
      (forall e, In e (firstn t T) -> nth_error (s_x s') (col_of row e) = Some true) /\
      (forall e, In e (skipn t T) -> nth_error (s_x s') (col_of row e) = Some false)).
  { intros x P pi Hx HP Hpi' Hu Hd Ho.
    assert (Hsum : lhs (as_assignment x) (m_elements r) = selected_value T sel).
    { rewrite (lhs_chosen (as_assignment x) row _ T Hrel HT). unfold selected_value. fold t.
      assert (Eu : map (fun e => as_assignment x (col_of row e)) T = repeat true (length (firstn t T)) ++ repeat false (length (skipn t T))).
      { rewrite <- (firstn_skipn t T) at 1. rewrite map_app. f_equal.
        - revert Hu. generalize (firstn t T). intros l Hu. induction l as [|e l IH]; cbn; [reflexivity|]. f_equal.
          + unfold as_assignment. apply nth_error_nth with (d := false), Hu. left. reflexivity.
          + apply IH. intros; apply Hu; right; assumption.
        - revert Hd. generalize (skipn t T). intros l Hd. induction l as [|e l IH]; cbn; [reflexivity|]. f_equal.
          + unfold as_assignment. apply nth_error_nth with (d := false), Hd. left. reflexivity.
          + apply IH. intros; apply Hd; right; assumption. }
      rewrite Eu. rewrite <- (firstn_skipn t T) at 1. generalize (firstn t T) (skipn t T). clear. intros a b.
      assert (E1 : chosen (a ++ b) (repeat true (length a) ++ repeat false (length b)) = a); [|rewrite E1; reflexivity].
      induction a as [|e a IH]; cbn; [|f_equal; exact IH]. induction b as [|e b IH]; cbn; [reflexivity|exact IH]. }
    rewrite (is_valid_constraint_value fo S_inequalities_Z cs n c mode after x0 g0 sv s0 Hmk Hrows x k r lo hi Hx Hk Hb), Hsum. cbn [bind].
    rewrite (proj2 (Z.leb_le _ _)) by lia. rewrite (proj2 (Z.leb_le _ _)) by lia. cbn [andb].
    destruct (nth_error pi k) as [np|] eqn:En; [|apply nth_error_None in En; lia]. cbn [bind].
    eexists _, _. split; [reflexivity|]. cbn [s_x s_g]. split; [unfold sized; cbn; auto|]. split; [reflexivity|]. split.
    - unfold row_satisfied. apply Hsame; [apply lhs_Z_range|]. lia.
    - split; [intros v Hv; apply Ho; apply Hcols; assumption|]. split; assumption. }
  unfold zaffect. rewrite Eold. cbn [bind].
  assert (Hcap : (0 < length (s_R s))%nat) by (rewrite HsR; exact (capacity_pos fo S_inequalities_Z cs n c mode after x0 g0 sv s0 Hmk)).
  assert (Hcap2 : (length (m_elements r) <= length (s_R s))%nat) by (rewrite HsR; apply longest_row_in; eapply nth_error_In; eassumption).
  assert (Hcap3 : (length (m_elements r) < length (s_R s ++ sv_after sv))%nat).
  { rewrite app_length. destruct zfields as (_ & _ & _ & Ea & _). rewrite Ea. destruct Hbuf as [Hne|Hbuf]; [destruct after; [contradiction|cbn; lia]|lia]. }
  destruct (Z.ltb_spec sel 0) as [Ht0|Ht0].
  - destruct (nth_error (s_R s) 0) as [r0|] eqn:E0; [|apply nth_error_None in E0; lia]. cbn [bind].
    match goal with |- context [list_modify (s_pi s) k ?f0] => destruct (list_modify_some (s_pi s) k f0 Hpi) as (p0 & pi' & _ & _ & Hpi') end.
    rewrite Hpi'. cbn [bind]. pose proof (list_modify_length _ _ _ _ Hpi') as Hlpi.
    rewrite (Hfn _) by lia. rewrite <- HlT, firstn_all.
    match goal with |- context [zassign_list row T pi' false ?d0 _ _] => set (d := d0) end.
    destruct (zassign_list_ok row pi' false d T Hrowb ltac:(lia) Hidin HndT (s_x s) (s_P s) Hsx HsP) as (x' & P' & -> & Hl1 & Hl2 & Hin & Hout).
    cbn [bind]. apply Hfin; try lia.
    + replace t with 0%nat by lia. intros e [].
    + replace t with 0%nat by lia. intros e He. apply Hin. assumption.
    + assumption.
  - destruct (Z.leb_spec (Z.of_nat (length (m_elements r))) (sel + 1)) as [Htr|Htr].
    + unfold nth_Z at 1. destruct (Z.ltb_spec sel 0); [lia|].
      destruct (nth_error (s_R s ++ sv_after sv) (Z.to_nat sel)) as [rs|] eqn:Ers; [|apply nth_error_None in Ers; lia]. cbn [bind].
      match goal with |- context [list_modify (s_pi s) k ?f0] => destruct (list_modify_some (s_pi s) k f0 Hpi) as (p0 & pi' & _ & _ & Hpi') end.
      rewrite Hpi'. cbn [bind]. pose proof (list_modify_length _ _ _ _ Hpi') as Hlpi.
      rewrite (Hfn _) by lia. rewrite <- HlT, firstn_all.
      match goal with |- context [zassign_list row T pi' true ?d0 _ _] => set (d := d0) end.
      destruct (zassign_list_ok row pi' true d T Hrowb ltac:(lia) Hidin HndT (s_x s) (s_P s) Hsx HsP) as (x' & P' & -> & Hl1 & Hl2 & Hin & Hout).
      cbn [bind]. apply Hfin; try lia.
      * intros e He. apply Hin. rewrite <- (firstn_skipn t T). apply in_or_app. left. assumption.
      * rewrite skipn_all2 by lia. intros e [].
      * assumption.
    + unfold nth_Z at 1 2. destruct (Z.ltb_spec sel 0); [lia|]. destruct (Z.ltb_spec (sel + 1) 0); [lia|].
      destruct (nth_error (s_R s) (Z.to_nat sel)) as [rs|] eqn:Ers; [|apply nth_error_None in Ers; lia]. cbn [bind].
      destruct (nth_error (s_R s) (Z.to_nat (sel + 1))) as [rs1|] eqn:Ers1; [|apply nth_error_None in Ers1; lia]. cbn [bind].
      match goal with |- context [list_modify (s_pi s) k ?f0] => destruct (list_modify_some (s_pi s) k f0 Hpi) as (p0 & pi' & _ & _ & Hpi') end.
      rewrite Hpi'. cbn [bind]. pose proof (list_modify_length _ _ _ _ Hpi') as Hlpi. fold t.
      rewrite (Hfn _) by lia.
      assert (HndA : NoDup (map (col_of row) (firstn t T)) /\ NoDup (map (col_of row) (skipn t T)) /\
         forall v, In v (map (col_of row) (firstn t T)) -> ~ In v (map (col_of row) (skipn t T))).
      { rewrite <- (firstn_skipn t T), map_app in HndT. clear -HndT. revert HndT.
        generalize (map (col_of row) (firstn t T)) (map (col_of row) (skipn t T)). intros a b H.
        induction a as [|q a IH]; cbn in *; [split; [constructor|]; split; [assumption|]; intros v []|].
        inversion H as [|? ? Hni Hnd]; subst. destruct (IH Hnd) as (H1 & H2 & H3). split.
        - constructor; [|assumption]. intros Hin. apply Hni. apply in_or_app. auto.
        - split; [assumption|]. intros v [<-|Hv]; [|apply H3; assumption]. intros Hin. apply Hni. apply in_or_app. auto. }
      destruct HndA as (Hnd1 & Hnd2 & Hdisj).
      assert (Hin1' : forall e, In e (firstn t T) -> (rc_id e < length row)%nat).
      { intros e He. apply Hidin. rewrite <- (firstn_skipn t T). apply in_or_app. auto. }
      assert (Hin2' : forall e, In e (skipn t T) -> (rc_id e < length row)%nat).
      { intros e He. apply Hidin. rewrite <- (firstn_skipn t T). apply in_or_app. auto. }
      match goal with |- context [zassign_list row _ pi' true ?d0 _ _] => set (d := d0) end.
      destruct (zassign_list_ok row pi' true d (firstn t T) Hrowb ltac:(lia) Hin1' Hnd1 (s_x s) (s_P s) Hsx HsP) as (x1 & P1 & -> & Hl1 & Hl2 & Hin1 & Hout1).
      cbn [bind]. rewrite Hsn by lia.
      destruct (zassign_list_ok row pi' false d (skipn t T) Hrowb ltac:(lia) Hin2' Hnd2 x1 P1 Hl1 Hl2) as (x2 & P2 & -> & Hl3 & Hl4 & Hin2 & Hout2).
      cbn [bind]. apply Hfin; try lia.
      * intros e He. rewrite Hout2 by (apply Hdisj, in_map; assumption). apply Hin1. assumption.
      * intros e He. apply Hin2. assumption.
      * intros v Hv. rewrite <- (firstn_skipn t T), map_app in Hv.
        rewrite Hout2 by (intros Hin; apply Hv; apply in_or_app; auto).
        apply Hout1. intros Hin; apply Hv; apply in_or_app; auto.
Qed.

(** ** The choice of a sub-solver *)
Lemma zchoose_ok k r row lo hi T0 rest g : nth_error cs k = Some r -> Forall2 row_rel row (m_elements r) ->
  nth_error (sv_b sv) k = Some (lo, hi) -> ctor_inequalities_Z r = Ok (lo, hi) ->
  map rkey T0 = combine (seq 0 (length (m_elements r))) (map f_factor (m_elements r)) ->
  length (T0 ++ rest) = longest_row cs -> buffer_one_more cs after r -> supported r ->
  (~ unit_row r -> (10 <= length (m_elements r))%nat -> sums_finite fo mode init_z T0) ->
  exists T sel g', zchoose fo ro std_sort init_z zs (z_kind r) k (T0 ++ rest) (length (m_elements r)) lo hi g = Some (T ++ rest, sel, g') /\
    Permutation T T0 /\ -1 <= sel <= Z.of_nat (length (m_elements r)) /\ lo <= selected_value T sel <= hi.
Proof.
  intros Hk Hrel Hb Hc HT0 Hlen Hbuf Hsup Hfin.
  pose proof (z_kind_facts r lo hi Hc) as (Hnz & Hlh & Hsame & Hkind).
  destruct zfields as (_ & _ & Emode & Eafter & _).
  assert (HlT0 : length T0 = length (m_elements r)).
  { apply (f_equal (@length _)) in HT0. rewrite map_length, combine_length, seq_length, map_length, Nat.min_id in HT0. assumption. }
  assert (Hkeyf : map rc_f T0 = map f_factor (m_elements r)).
  { apply (f_equal (map snd)) in HT0. rewrite map_map in HT0. cbn [rkey snd] in HT0. change (map rc_f T0) with (map (fun x : rc F => rc_f x) T0). rewrite HT0. clear.
    generalize 0%nat as q. induction (m_elements r) as [|e l IH]; intros q; cbn; [reflexivity|]. f_equal. apply IH. }
  assert (Hfirst : firstn (length (m_elements r)) (T0 ++ rest) = T0) by (apply firstn_app_exact; assumption).
  assert (Hskip : skipn (length (m_elements r)) (T0 ++ rest) = rest) by (apply skipn_app_exact; assumption).
  assert (HtabF : forall f, In f (map rc_f T0) -> f <> 0).
  { rewrite Hkeyf. intros f Hf. apply in_map_iff in Hf. destruct Hf as (e & <- & He). apply Hnz. assumption. }
  (* the sorted buffer *)
  destruct (calculator_sort_perm fo ro std_sort Hperm Hshuf mode (T0 ++ rest) (length (m_elements r)) g) as (T & HT & HpT).
  rewrite Hfirst in HpT. rewrite Hskip in HT.
  assert (HkT : Permutation (map rkey T) (combine (seq 0 (length (m_elements r))) (map f_factor (m_elements r)))).
  { rewrite <- HT0. apply Permutation_map. assumption. }
  assert (HlT : length T = length (m_elements r)) by (rewrite (Permutation_length HpT); assumption).
  assert (HfirstT : firstn (length (m_elements r)) (T ++ rest) = T) by (apply firstn_app_exact; assumption).
  assert (HskipT : skipn (length (m_elements r)) (T ++ rest) = rest) by (apply skipn_app_exact; assumption).
  (* selection on it *)
  assert (Hsel : exists b, zselect fo mode ((T ++ rest) ++ after) (S (length (m_elements r))) (-1) 0 (-2) lo hi = Some b /\
     ((b = -2 /\ forall t, (t <= length T)%nat -> ~ lo <= sum_factors (firstn t T) <= hi) \/
      (-1 <= b < Z.of_nat (length (m_elements r)) /\ lo <= selected_value T b <= hi))).
  { destruct (zselect_ok mode ((T ++ rest) ++ after) lo hi (S (length (m_elements r))) (-1) 0 (-2)) as (b & Eb & Hbb).
    - lia.
    - reflexivity.
    - cbn [Z.add Z.to_nat Z.pos_sub Nat.add]. rewrite !app_length in *. unfold buffer_one_more in Hbuf.
      destruct Hbuf as [Hne|Hbuf]; [destruct after; [contradiction|cbn [length]; lia]|lia].
    - left. reflexivity.
    - assert (Hsv : forall t, -1 <= t < Z.of_nat (length (m_elements r)) -> selected_value ((T ++ rest) ++ after) t = selected_value T t).
      { intros t Ht. unfold selected_value. rewrite <- app_assoc, firstn_app. replace (Z.to_nat (t + 1) - length T)%nat with 0%nat by lia.
        rewrite app_nil_r. reflexivity. }
      exists b. split; [exact Eb|]. destruct Hbb as [(-> & _ & Hno)|(Hb1 & Hb2)].
      + left. split; [reflexivity|]. intros t Ht. specialize (Hno (Z.of_nat t - 1) ltac:(lia)). rewrite Hsv in Hno by lia.
        unfold selected_value in Hno. replace (Z.to_nat (Z.of_nat t - 1 + 1)) with t in Hno by lia. assumption.
      + right. split; [lia|]. rewrite <- Hsv by lia. assumption. }
  destruct Hsel as (b & Eb & Hbb).
  (* branch and bound *)
  assert (Hbbs : ~ unit_row r -> (10 <= length (m_elements r))%nat -> exists T' sel,
     zbb fo std_sort init_z mode (T ++ rest) (length (m_elements r)) lo hi = Some (T' ++ rest, sel) /\ Permutation T' T0 /\
     -1 <= sel <= Z.of_nat (length (m_elements r)) /\ lo <= selected_value T' sel <= hi).
  { intros Hu Hten. unfold zbb. rewrite HfirstT, HskipT.
    destruct (bb_solve_ok fo std_sort init_z mode Hperm Hsort Hw T lo hi) as (T' & sel & -> & HP & Hse & _ & Hreach & _).
    - lia.
    - assumption.
    - intros q Hq. apply HtabF. apply in_map. eapply Permutation_in; eassumption.
    - intros l l' Hp. apply (Hfin Hu Hten l l'). etransitivity; eassumption.
    - cbn [bind]. exists T', sel. split; [reflexivity|]. split; [etransitivity; eassumption|]. split; [lia|]. apply Hreach.
      assert (Hsat : exists x, allowed r (lhs x (m_elements r))).
      { destruct Hsup as [H0|[H1|[(H2 & _)|[(_ & H3 & _)|(_ & H3 & _)]]]].
        - exists (fun _ => false). assert (E0 : lhs (fun _ => false) (m_elements r) = 0) by (generalize (m_elements r); induction l as [|e l IH]; cbn; [reflexivity|]; rewrite IH; lia).
          rewrite E0. assumption.
        - exists (fun _ => true). exact H1.
        - contradiction.
        - exact H3.
        - exact H3. }
      destruct Hsat as (x & Hx). exists (map (fun e => x (col_of row e)) T). split; [apply map_length|].
      rewrite <- (lhs_chosen x row _ T Hrel HkT). apply Hsame; [apply lhs_Z_range|assumption]. }
  assert (Hex : exhaustive_kind (z_kind r) = true -> (0 < length (m_elements r))%nat -> exists T' sel,
     zex fo std_sort mode (zs_ex zs) k (T0 ++ rest) (length (m_elements r)) = Some (T' ++ rest, sel) /\ Permutation T' T0 /\
     -1 <= sel <= Z.of_nat (length (m_elements r)) /\ lo <= selected_value T' sel <= hi).
  { intros Ekind Hpos. unfold zex. rewrite Hfirst, Hskip.
    destruct (ex_solve_ok fo std_sort Hperm Hsort Hw mode (zs_ex zs) (mk_xrow k (m_elements r) lo hi) T0 (tabled k r lo hi Hk Hb Ekind) Hnz Hpos HlT0)
      as (T' & sel & u & E1 & HP & Hse & Hu & HTu & _). cbn [x_k x_elements x_lo x_hi] in *. rewrite E1. cbn [bind].
    exists T', sel. split; [reflexivity|]. split; [assumption|]. split; [lia|]. destruct Hu as [HuL Huv].
    unfold selected_value. rewrite (sum_factors_perm _ _ HTu).
    assert (Hrv : forall (R : list (rc F)) l u, map rc_f R = map f_factor l -> length u = length l -> sum_factors (chosen R u) = row_value l u).
    { clear. induction R as [|a R IH]; intros [|e l] [|b u] H Hl; cbn in *; try discriminate; try reflexivity; try lia.
      injection H as He Hm. specialize (IH l u Hm ltac:(lia)). destruct b; cbn; lia. }
    rewrite (Hrv T0 (m_elements r) u Hkeyf HuL). assumption. }
  assert (Htot : total r = sum_factors T) by (apply (sum_factors_total row _ T Hrel HkT)).
  assert (Hz : sum_neg (m_elements r) <= 0 <= sum_pos (m_elements r)).
  { pose proof (lhs_Z_range (fun _ => false) (m_elements r)) as Hr. assert (E0 : lhs (fun _ => false) (m_elements r) = 0).
    { generalize (m_elements r). induction l as [|e l IH]; cbn; [reflexivity|]. rewrite IH. lia. } lia. }
  pose proof (lhs_Z_range (fun _ => true) (m_elements r)) as Hr1. fold (total r) in Hr1.
  assert (H01 : allowed r 0 \/ allowed r (total r) -> b <> -2).
  { intros H ->. destruct Hbb as [(_ & Hno)|[Hbb _]]; [|lia]. destruct H as [H|H].
    - apply (Hno 0%nat); [lia|]. cbn. apply Hsame; assumption.
    - apply (Hno (length T)); [lia|]. rewrite firstn_all, <- Htot. apply Hsame; assumption. }
  assert (Hb2 : b <> -2 -> -1 <= b <= Z.of_nat (length (m_elements r)) /\ lo <= selected_value T b <= hi).
  { intros Hne. destruct Hbb as [(Eb2 & _)|Hbb]; [contradiction|]. lia. }
  unfold zchoose. rewrite Emode, Eafter.
  destruct (calculator_sort fo ro std_sort mode (T0 ++ rest) (length (m_elements r)) g) as [R3 g3]. cbn [fst] in HT. subst R3.
  destruct (z_kind r) eqn:Ekind.
  - destruct (Hbbs (proj1 Hkind) (proj2 Hkind)) as (T' & sel & -> & HP & H1 & H2). cbn [bind]. exists T', sel, g3. auto.
  - destruct (Hex eq_refl (proj2 Hkind)) as (T' & sel & -> & HP & H1 & H2). cbn [bind]. exists T', sel, g. auto.
  - rewrite Eb. cbn [bind]. destruct (Z.eqb_spec b (-2)) as [E2|E2].
    + destruct (Hbbs (proj1 Hkind) (proj2 Hkind)) as (T' & sel & -> & HP & H1 & H2). cbn [bind]. exists T', sel, g3. auto.
    + exists T, b, g3. split; [reflexivity|]. split; [assumption|]. auto.
  - rewrite Eb. cbn [bind]. destruct Hkind as (Hnu & Hten & Hne & Hside).
    assert (E2 : b <> -2).
    { apply H01. destruct Hsup as [H|[H|[(H & _)|[(_ & _ & H)|(_ & _ & H)]]]]; auto; [contradiction|lia|].
      destruct H as [H|[(x & Hx) (y & Hy)]]; [contradiction|]. pose proof (lhs_Z_range x (m_elements r)). pose proof (lhs_Z_range y (m_elements r)). lia. }
    destruct (Z.eqb_spec b (-2)) as [E3|_]; [contradiction|].
    exists T, b, g3. split; [reflexivity|]. split; [assumption|]. auto.
  - rewrite Eb. cbn [bind].
    assert (E2 : b <> -2).
    { assert (Hv : (allowed r 0 \/ allowed r (total r)) \/ exists v, allowed r v /\ (0 <= v <= total r \/ total r <= v <= 0)).
      { destruct Hsup as [H|[H|[(_ & H)|[(H & _)|(H & _)]]]]; auto; contradiction. }
      destruct Hv as [Hv|(v & Hv1 & Hv2)]; [apply H01; assumption|]. intros ->. destruct Hbb as [(_ & Hno)|[Hbb _]]; [|lia].
      assert (HuT : forall e, In e T -> rc_f e = 1 \/ rc_f e = -1).
      { intros e He. assert (Hin : In (rc_f e) (map f_factor (m_elements r))).
        { rewrite <- Hkeyf. apply in_map. eapply Permutation_in; eassumption. }
        apply in_map_iff in Hin. destruct Hin as (fe & <- & Hfe). apply Hkind. assumption. }
      rewrite Htot in Hv2. destruct (unit_prefix T HuT v Hv2) as (t & Ht & Et). apply (Hno t Ht). rewrite Et. apply Hsame; [lia|assumption]. }
    exists T, b, g3. split; [reflexivity|]. split; [assumption|]. auto.
Qed.

(** ** The row update *)
Lemma zupdate_row_ok push kappa delta theta k r s : nth_error cs k = Some r -> supported r -> buffer_one_more cs after r -> sized cs n s ->
  (forall row P R sz, ~ unit_row r -> (10 <= length (m_elements r))%nat -> mx_row (sv_ap sv) k = Some row ->
     zprepare fo sv push theta row s = Some (P, R, sz) -> sums_finite fo mode init_z (firstn sz R)) ->
  exists s' b, zupdate_row fo ro std_sort init_z zs push kappa delta theta k s = Some (s', b) /\
    sized cs n s' /\ row_satisfied (s_x s') r /\
    (forall v, ~ In v (map f_var (m_elements r)) -> nth_error (s_x s') v = nth_error (s_x s) v).
Proof.
  intros Hk Hsup Hbuf Hs Hfin. pose proof Hs as (Hsx & HsP & Hspi & HsR).
  destruct (row_matches fo S_inequalities_Z cs n c mode after x0 g0 sv s0 Hmk Hrows k r Hk) as (row & Hrow & Hrel).
  destruct (bounds_at fo S_inequalities_Z cs n c mode after x0 g0 sv s0 Hmk k r Hk) as (lo & hi & Hb & Hc). cbn [ctor_row] in Hc.
  destruct (Hrows r (nth_error_In _ _ Hk)) as [Hnd Hvar]. pose proof (Forall2_length _ _ _ Hrel) as Hlen.
  assert (Hln : (length row <= n)%nat).
  { rewrite Hlen, <- (map_length f_var). rewrite <- (seq_length n 0). apply NoDup_incl_length; [assumption|].
    intros v Hv. apply in_map_iff in Hv. destruct Hv as (e & <- & He). apply in_seq. specialize (Hvar e He). lia. }
  assert (Hcap : (length row <= length (s_R s))%nat) by (rewrite HsR, Hlen; apply longest_row_in; eapply nth_error_In; eassumption).
  assert (Hrowb : forall p, In p row -> (fst p < length (s_P s))%nat).
  { rewrite HsP. intros p Hp. clear -Hrel Hp. induction Hrel as [|q e row' els Hq HF IH]; [destruct Hp|].
    destruct Hp as [<-|Hp]; [apply Hq|apply IH; assumption]. }
  assert (Hprep : exists P T0, zprepare fo sv push theta row s = Some (P, T0 ++ skipn (length (m_elements r)) (s_R s), length (m_elements r)) /\
     length P = elements_number cs /\ map rkey T0 = combine (seq 0 (length (m_elements r))) (map f_factor (m_elements r))).
  { unfold zprepare. destruct (decrease_ok fo theta row (s_P s) Hrowb) as (P & HP & HlP). rewrite HP. cbn [bind].
    destruct (zreduced_costs_ok (s_x s) P (s_pi s) Hsx ltac:(lia) Hspi row _ Hrel Hvar (s_R s) 0%nat) as (new & Hnew & Hkey); [lia|].
    rewrite Hnew. cbn [bind firstn app Nat.add]. rewrite Hlen. rewrite Hlen in Hkey.
    assert (Hlnew : length new = length (m_elements r)).
    { apply (f_equal (@length _)) in Hkey. rewrite map_length, combine_length, seq_length, map_length, Nat.min_id in Hkey. assumption. }
    destruct push as [amp|]; cbn [bind].
    - assert (Hgen : forall m R i, (i + m <= length new)%nat -> length R = longest_row cs ->
         map rkey (firstn (length new) R) = map rkey new -> skipn (length new) R = skipn (length (m_elements r)) (s_R s) ->
         exists R', push_costs fo sv (s_x s) row amp R m i = Some R' /\ length R' = longest_row cs /\
         map rkey (firstn (length new) R') = map rkey new /\ skipn (length new) R' = skipn (length (m_elements r)) (s_R s)).
      { clear Hnew. induction m as [|m IH]; intros R i Hi HlR HkR HsRR; cbn [push_costs]; [eauto 6|].
        assert (Hlong : (length new <= longest_row cs)%nat) by lia.
        destruct (nth_error R i) as [e|] eqn:E; [|apply nth_error_None in E; lia]. cbn [bind].
        assert (Hin : In (rkey e) (map rkey new)).
        { rewrite <- HkR. apply in_map. rewrite <- (firstn_skipn (length new) R) in E. rewrite nth_error_app1 in E by (rewrite firstn_length_le; lia).
          eapply nth_error_In. eassumption. }
        rewrite Hkey in Hin. rewrite <- (map_length f_factor) in Hin. apply combine_seq_nth in Hin. destruct Hin as [_ Hin].
        rewrite Nat.sub_0_r in Hin. assert (Hq : (rc_id e < length (map f_factor (m_elements r)))%nat) by (apply nth_error_Some; congruence).
        rewrite map_length in Hq. destruct zfields as (Ek & Ec & _). rewrite Ek, Ec.
        destruct (nth_error row (rc_id e)) as [[slot col]|] eqn:En; [|apply nth_error_None in En; lia]. cbn [bind].
        assert (Hcol : (col < n)%nat).
        { clear -Hrel En Hvar. apply nth_error_In in En. induction Hrel as [|q fe row' els Hq HF IH]; [destruct En|].
          destruct En as [->|En]; [destruct Hq as (_ & Hq & _); cbn in Hq; rewrite Hq; apply Hvar; left; reflexivity|].
          apply IH; [intros; apply Hvar; right; assumption|assumption]. }
        destruct (Hcost col (s_x s) Hcol Hsx) as [cf ->]. cbn [bind].
        set (e' := mk_rc _ _ _). destruct (list_upd_some R i e') as [R1 H1]; [lia|]. rewrite H1. cbn [bind].
        pose proof (list_upd_length _ _ _ _ H1) as Hl1. apply IH; [lia|lia| |].
        - rewrite <- HkR. apply nth_error_ext. intros j. rewrite !nth_error_map.
          assert (Hfn : forall (l : list (rc F)) q, nth_error (firstn q l) j = if Nat.ltb j q then nth_error l j else None).
          { clear. intros l q. destruct (Nat.ltb_spec j q) as [Hj|Hj].
            - revert l j Hj. induction q as [|q IH]; intros l j Hj; [lia|]. destruct l as [|a l]; [destruct j; reflexivity|]. destruct j as [|j]; [reflexivity|]. cbn. apply IH. lia.
            - apply nth_error_None. rewrite firstn_length. lia. }
          rewrite !Hfn, (list_upd_nth _ _ _ _ _ H1). destruct (Nat.ltb j (length new)); [|reflexivity].
          destruct (Nat.eqb_spec j i) as [Hji|]; [subst j; rewrite E; reflexivity|reflexivity].
        - rewrite <- HsRR. rewrite (list_upd_firstn_skipn _ _ _ _ H1). rewrite skipn_app, firstn_length_le by lia.
          rewrite skipn_all2 by (rewrite firstn_length_le; lia). cbn [app].
          replace (length new - i)%nat with (S (length new - S i)) by lia. cbn [skipn].
          change (match R with [] => [] | _ :: l0 => skipn i l0 end) with (skipn (S i) R). rewrite skipn_skipn'. f_equal. lia. }
      destruct (Hgen (length (m_elements r)) (new ++ skipn (length (m_elements r)) (s_R s)) 0%nat) as (R' & -> & HlR' & HkR' & HsR').
      { lia. } { rewrite app_length, skipn_length. lia. } { f_equal. apply firstn_app_exact. reflexivity. } { apply skipn_app_exact. reflexivity. }
      cbn [bind]. exists P, (firstn (length new) R'). rewrite <- HsR', firstn_skipn. split; [reflexivity|]. split; [lia|]. rewrite HkR', Hkey. reflexivity.
    - exists P, new. split; [reflexivity|]. split; [lia|exact Hkey]. }
  destruct Hprep as (P & T0 & Hprep & HlP & Hkey).
  assert (HlT0 : length T0 = length (m_elements r)).
  { apply (f_equal (@length _)) in Hkey. rewrite map_length, combine_length, seq_length, map_length, Nat.min_id in Hkey. assumption. }
  unfold zupdate_row. rewrite Hrow. cbn [bind]. rewrite Hprep. cbn [bind].
  destruct zmk_fields as (_ & -> & _). rewrite nth_error_map, Hk. cbn [option_map bind].
  unfold bound_min, bound_max. rewrite Hb. cbn [option_map bind fst snd].
  destruct (zchoose_ok k r row lo hi T0 (skipn (length (m_elements r)) (s_R s)) (s_g s) Hk Hrel Hb Hc Hkey) as (T & sel & g & -> & HP & Hsel & Hval); try assumption.
  { rewrite app_length, skipn_length. lia. }
  { intros Hu Hten. rewrite <- (firstn_app_exact T0 (skipn (length (m_elements r)) (s_R s)) (length (m_elements r)) HlT0).
    eapply Hfin; eassumption. }
  cbn [bind].
  destruct (zaffect_ok k r row sel kappa delta (mk_state (s_x s) P (s_pi s) (T ++ skipn (length (m_elements r)) (s_R s)) g) T
     (skipn (length (m_elements r)) (s_R s)) lo hi) as (s' & b & Ha & Hsz & _ & Hsat & Hout & _); try assumption.
  - unfold sized. cbn. rewrite app_length, skipn_length, (Permutation_length HP). repeat split; lia.
  - reflexivity.
  - rewrite <- Hkey. apply Permutation_map. assumption.
  - exists s', b. split; [exact Ha|]. auto.
Qed.
End Solver.
End Proofs.
