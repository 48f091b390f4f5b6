(** Proofs about the choice made by a row update. *)
From Coq Require Import Permutation Sorting.
From Verif Require Import Base Problem_model Problem_spec Merged_model Merged_spec Classify_model Classify_proofs Matrix_model Matrix_spec
  Matrix_proofs Rows_model Rows_spec Rows_proofs Greedy_spec.
Open Scope Z_scope.

Lemma StronglySorted_app {A} (R : A -> A -> Prop) l l' : StronglySorted R (l ++ l') <->
  StronglySorted R l /\ StronglySorted R l' /\ forall a b, In a l -> In b l' -> R a b.
Proof.
  induction l as [|a l IH]; cbn [app].
  - split; [intros H; split; [constructor|split; [assumption|intros a b []]]|intros (_ & H & _); assumption].
  - split.
    + intros H. inversion H as [|? ? Hs Hf]; subst. apply IH in Hs. destruct Hs as (H1 & H2 & H3).
      rewrite Forall_app in Hf. destruct Hf as [Hf1 Hf2]. split; [constructor; assumption|]. split; [assumption|].
      intros b d [<-|Hb] Hd; [|apply H3; assumption]. rewrite Forall_forall in Hf2. apply Hf2, Hd.
    + intros (H1 & H2 & H3). inversion H1 as [|? ? Hs Hf]; subst. constructor.
      * apply IH. split; [assumption|]. split; [assumption|]. intros; apply H3; [right|]; assumption.
      * rewrite Forall_app. split; [assumption|]. rewrite Forall_forall. intros b Hb. apply H3; [left; reflexivity|assumption].
Qed.
Lemma StronglySorted_all {A} (R : A -> A -> Prop) l : (forall a b, In a l -> In b l -> R a b) -> StronglySorted R l.
Proof.
  induction l as [|a l IH]; intros H; constructor.
  - apply IH. intros; apply H; right; assumption.
  - rewrite Forall_forall. intros b Hb. apply H; [left; reflexivity|right; assumption].
Qed.

(** ** Occurrences *)
Definition access_of (p : nat * nat * felem) : access := let '(slot, row, e) := p in mk_access row (f_var e) slot.
Lemma row_places_accessors row l : forall slot, accessors_row row l slot = map access_of (row_places row slot l).
Proof. induction l as [|e l IH]; intros slot; cbn; [reflexivity|]. rewrite IH. reflexivity. Qed.
Lemma places_accessors cs : forall row slot, make_accessors row (map m_elements cs) slot = map access_of (places row slot cs).
Proof.
  induction cs as [|c cs IH]; intros row slot; cbn [map make_accessors places]; [reflexivity|].
  rewrite map_app, <- row_places_accessors, IH. reflexivity.
Qed.
Lemma filter_map {A B} (f : A -> B) p l : filter p (map f l) = map f (filter (fun a => p (f a)) l).
Proof. induction l as [|a l IH]; cbn; [reflexivity|]. destruct (p (f a)); cbn; rewrite IH; reflexivity. Qed.

Section Proofs.
Context {F G : Type} (fo : fops F) (ro : rops G)
        (std_sort : forall A : Type, (A -> A -> bool) -> list A -> list A).
Hypothesis Hperm : permutes std_sort.
Hypothesis Hsorts : sorts std_sort.
Hypothesis Hshuf : shuffles ro.
Hypothesis Hfl : ordered_floats fo.

(** ** Sorting *)
Lemma rc_lt_better mode (a b : rc F) : rc_lt fo mode a b = better fo mode (rc_value a) (rc_value b).
Proof. destruct mode; reflexivity. Qed.
Lemma better_negtrans mode a b d : better fo mode a b = false -> better fo mode b d = false -> better fo mode a d = false.
Proof. destruct mode; cbn [better]; intros; eapply (of_negtrans _ Hfl); eassumption. Qed.
Lemma better_trans mode a b d : better fo mode a b = true -> better fo mode b d = true -> better fo mode a d = true.
Proof. destruct mode; cbn [better]; intros; eapply (of_trans _ Hfl); eassumption. Qed.
Lemma better_irrefl mode a : better fo mode a a = false.
Proof. destruct mode; apply (of_irrefl _ Hfl). Qed.
Lemma better_asym mode a b : better fo mode a b = true -> better fo mode b a = false.
Proof.
  intros H. destruct (better fo mode b a) eqn:E; [|reflexivity].
  pose proof (better_trans _ _ _ _ H E) as H'. rewrite better_irrefl in H'. discriminate.
Qed.
Lemma eqb_better mode a b : fl_eqb fo a b = true -> better fo mode a b = false /\ better fo mode b a = false.
Proof. intros H. destruct (of_eqb _ Hfl _ _ H). destruct mode; cbn [better]; auto. Qed.

Definition in_order (mode : objective_type) (a b : rc F) : Prop := rc_lt fo mode b a = false.
Lemma shuffle_runs_sorted mode l : forall first run g,
  StronglySorted (in_order mode) (run ++ l) ->
  (forall a, In a run -> better fo mode (rc_value first) (rc_value a) = false /\ better fo mode (rc_value a) (rc_value first) = false) ->
  StronglySorted (in_order mode) (fst (shuffle_runs fo ro first run l g)).
Proof.
  assert (Hrun : forall first run run', Permutation run' run ->
    (forall a, In a run -> better fo mode (rc_value first) (rc_value a) = false /\ better fo mode (rc_value a) (rc_value first) = false) ->
    StronglySorted (in_order mode) run').
  { intros first run run' Hp Hr. apply StronglySorted_all. intros a b Ha Hb. unfold in_order. rewrite rc_lt_better.
    apply (better_negtrans mode _ (rc_value first)).
    - apply Hr. eapply Permutation_in; eassumption.
    - apply Hr. eapply Permutation_in; eassumption. }
  induction l as [|b l IH]; intros first run g Hs Hr; cbn [shuffle_runs].
  - eapply Hrun; [apply Hshuf|eassumption].
  - destruct (fl_eqb fo (rc_value first) (rc_value b)) eqn:E.
    + apply IH; [rewrite <- app_assoc; exact Hs|]. intros a Ha. apply in_app_or in Ha. destruct Ha as [Ha|[<-|[]]]; [apply Hr, Ha|].
      apply eqb_better. exact E.
    + pose proof (Hshuf _ g run) as H1. destruct (rg_shuffle ro _ g run) as [s g1]. cbn [fst] in H1.
      apply StronglySorted_app in Hs. destruct Hs as (_ & Hs2 & Hs3).
      pose proof (IH b [b] g1 Hs2) as H2. pose proof (shuffle_runs_perm fo ro Hshuf l b [b] g1) as H3.
      destruct (shuffle_runs fo ro b [b] l g1) as [t g2]. cbn [fst] in *. apply StronglySorted_app. split; [|split].
      * eapply Hrun; eassumption.
      * apply H2. intros a [<-|[]]. split; apply better_irrefl.
      * intros p q Hp Hq. apply Hs3; [eapply Permutation_in; eassumption|]. exact (Permutation_in _ H3 Hq).
Qed.
Lemma calculator_sort_sorted mode (R : list (rc F)) n g :
  exists T, fst (calculator_sort fo ro std_sort mode R n g) = T ++ skipn n R /\ Permutation T (firstn n R) /\
    StronglySorted (in_order mode) T.
Proof.
  unfold calculator_sort. destruct (firstn n R) as [|a [|b l]] eqn:E.
  - exists []. split; [|split; constructor]. cbn. rewrite <- (firstn_skipn n R) at 1. rewrite E. reflexivity.
  - exists [a]. split; [|split; [reflexivity|repeat constructor]]. cbn. rewrite <- (firstn_skipn n R) at 1. rewrite E. reflexivity.
  - pose proof (Hperm _ (rc_lt fo mode) (a :: b :: l)) as Hp.
    assert (Hs : StronglySorted (in_order mode) (std_sort _ (rc_lt fo mode) (a :: b :: l))).
    { apply Hsorts; intros; rewrite rc_lt_better in *.
      - apply better_irrefl.
      - eapply better_trans; eassumption.
      - eapply better_negtrans; eassumption. }
    destruct (std_sort _ (rc_lt fo mode) (a :: b :: l)) as [|e l'].
    + apply Permutation_nil in Hp. discriminate.
    + pose proof (shuffle_runs_perm fo ro Hshuf l' e [e] g) as Hsp.
      pose proof (shuffle_runs_sorted mode l' e [e] g Hs) as Hss.
      destruct (shuffle_runs fo ro e [e] l' g) as [s g']. cbn [fst] in *.
      exists s. split; [reflexivity|]. split; [etransitivity; eassumption|]. apply Hss. intros d [<-|[]]. split; apply better_irrefl.
Qed.

(** ** stop_iterating *)
Lemma stop_false mode v g g' : stop_iterating fo ro mode v g = (false, g') -> better fo mode (fl_of_Z fo 0) v = false.
Proof.
  unfold stop_iterating. destruct (fl_eqb fo v (fl_of_Z fo 0)) eqn:E; intros H.
  - apply (eqb_better mode) in E. apply E.
  - injection H as H1 _. destruct mode; exact H1.
Qed.
Lemma stop_true mode v g g' : stop_iterating fo ro mode v g = (true, g') -> better fo mode v (fl_of_Z fo 0) = false.
Proof.
  unfold stop_iterating. destruct (fl_eqb fo v (fl_of_Z fo 0)) eqn:E; intros H.
  - apply (eqb_better mode) in E. apply E.
  - apply better_asym. injection H as H1 _. destruct mode; exact H1.
Qed.
Lemma select_loop_inv md R m : forall i hi g sel g', 0 <= i -> i + Z.of_nat m = hi + 1 ->
  select_loop fo ro md R m i hi g = Some (sel, g') ->
  exists t, sel = t - 1 /\ (i <= t <= hi \/ (m = 0%nat /\ t = hi)) /\
    (forall j e, i <= j < t -> nth_error R (Z.to_nat j) = Some e -> better fo md (fl_of_Z fo 0) (rc_value e) = false) /\
    (forall e, m <> 0%nat -> t < hi -> nth_error R (Z.to_nat t) = Some e -> better fo md (rc_value e) (fl_of_Z fo 0) = false).
Proof.
  induction m as [|m IH]; intros i hi g sel g' Hi Hm H; cbn [select_loop] in H.
  - inversion H; subst. exists hi. split; [reflexivity|]. split; [right; auto|]. split; [intros; lia|]. intros e Hne. destruct (Hne eq_refl).
  - unfold nth_Z in H. destruct (Z.ltb_spec i 0); [lia|].
    destruct (nth_error R (Z.to_nat i)) as [e|] eqn:E; [|discriminate]. cbn [bind] in H.
    destruct (stop_iterating fo ro md (rc_value e) g) as [[|] g1] eqn:Es.
    + inversion H; subst. exists i. split; [reflexivity|]. split; [left; lia|]. split; [intros; lia|].
      intros e' _ _ He'. rewrite E in He'. inversion He'; subst. eapply stop_true; eassumption.
    + destruct (IH (i + 1) hi g1 sel g') as (t & -> & Hr & Hb & Hg); [lia|lia|assumption|]. exists t. split; [reflexivity|].
      split; [left; lia|]. split.
      * intros j e' Hj He'. destruct (Z.eq_dec j i) as [->|]; [|apply (Hb j); [lia|assumption]].
        rewrite E in He'. inversion He'; subst. eapply stop_false; eassumption.
      * intros e' _ Ht He'. destruct (Nat.eq_dec m 0) as [->|]; [lia|]. apply Hg; assumption.
Qed.

Section Solver.
Variables (cl : solver_class) (cs : list merged) (n : nat) (c : nat -> list bool -> option F)
          (mode : objective_type) (after : list (rc F)) (x0 : list bool) (g0 : G) (sv : solver F) (s0 : state F G).
Hypothesis Hmk : make_solver fo cl cs n c mode after x0 g0 = Ok (sv, s0).
Hypothesis Hcl : shares_affect cl.
Hypothesis Hrows : forall r, In r cs -> row_ok n r.
Hypothesis Hcost : cost_defined n c.

Lemma sv_fields : sv_class sv = cl /\ sv_c sv = c /\ sv_mode sv = mode /\ sv_after sv = after.
Proof. destruct (mk_fields fo cl cs n c mode after x0 g0 sv s0 Hmk) as (? & ? & _ & _ & -> & _). cbn. auto. Qed.

(** The number [t] of chosen terms. *)
Lemma select_inv T rest r lo hi k g g' sel x1 : nth_error cs k = Some r ->
  ctor_row cl r = Ok (lo, hi) -> lo <= lhs x1 (m_elements r) <= hi ->
  length T = length (m_elements r) -> StronglySorted (in_order mode) T ->
  select_variables fo ro sv (T ++ rest) (length (m_elements r)) (negatives (m_elements r)) lo hi g = Some (sel, g') ->
  exists t, sel = t - 1 /\ 0 <= t <= Z.of_nat (length (m_elements r)) /\ lo <= t - negatives (m_elements r) <= hi /\
    (m_min r < t - negatives (m_elements r) -> forall e, In e (firstn (Z.to_nat t) T) -> better fo mode (fl_of_Z fo 0) (rc_value e) = false) /\
    (t - negatives (m_elements r) < m_max r -> forall e, In e (skipn (Z.to_nat t) T) -> better fo mode (rc_value e) (fl_of_Z fo 0) = false).
Proof.
  intros Hk Hc Hx HlT Hs Hsel. destruct (ctor_row_facts _ _ _ _ (not_Z _ Hcl) Hc) as [Hf Hb].
  pose proof (count_neg_negatives fo cl cs n c mode after x0 g0 sv s0 Hmk Hcl r Hf) as Hneg. pose proof (count_total (m_elements r)) as Htot.
  assert (Hf101 : forall e, In e (m_elements r) -> f_factor e = 1 \/ f_factor e = -1).
  { intros e He. specialize (Hf e He). destruct cl; cbn in Hf; auto. }
  pose proof (lhs_101_range x1 _ Hf101) as Hrange.
  assert (H01 : match cl with S_equalities_01 | S_inequalities_01 => negatives (m_elements r) = 0 | _ => True end).
  { assert (Hn : (forall e, In e (m_elements r) -> f_factor e = 1) -> negatives (m_elements r) = 0).
    { clear. unfold negatives. generalize (m_elements r) as l. induction l as [|e l IH]; intros H; [reflexivity|]. cbn [filter].
      rewrite (H e (or_introl eq_refl)). cbn [Z.ltb Z.compare]. apply IH. intros; apply H; right; assumption. }
    destruct cl; auto. }
  destruct sv_fields as (Esc & _ & Esm & Esa). unfold select_variables in Hsel. rewrite Esc, Esm, Esa in Hsel. clear Esc Esm Esa.
  set (len := length (m_elements r)) in *.
  (* a sorted list: what holds of one element holds of those before or after it *)
  assert (Hbefore : forall t j e, (j < t)%nat -> (forall i d, (j <= i < t)%nat -> nth_error T i = Some d -> better fo mode (fl_of_Z fo 0) (rc_value d) = false) ->
    (t <= length T)%nat -> In e (firstn t T) -> better fo mode (fl_of_Z fo 0) (rc_value e) = false).
  { intros t j e Hj Ha Ht He. apply In_nth_error in He. destruct He as [i Hi].
    assert (Hil : (i < t)%nat). { assert (i < length (firstn t T))%nat by (apply nth_error_Some; congruence). rewrite firstn_length in H. lia. }
    assert (HiT : nth_error T i = Some e). { rewrite <- (firstn_skipn t T), nth_error_app1 by (rewrite firstn_length; lia). exact Hi. }
    destruct (Nat.le_gt_cases j i) as [Hji|Hji]; [apply (Ha i); [lia|assumption]|].
    destruct (nth_error T j) as [d|] eqn:Ed; [|apply nth_error_None in Ed; lia].
    apply (better_negtrans mode _ (rc_value d)); [apply (Ha j); [lia|assumption]|]. rewrite <- rc_lt_better.
    destruct (nth_error_split _ _ HiT) as (l1 & l2 & -> & Hl1). apply StronglySorted_app in Hs. destruct Hs as (_ & Hs & _).
    inversion Hs as [|? ? _ Hfa]; subst. rewrite Forall_forall in Hfa. apply Hfa.
    rewrite nth_error_app2 in Ed by lia. destruct (j - length l1)%nat eqn:Ej; [lia|]. cbn in Ed. eapply nth_error_In; eassumption. }
  assert (Hafter : forall t d e, nth_error T t = Some d -> better fo mode (rc_value d) (fl_of_Z fo 0) = false ->
    In e (skipn t T) -> better fo mode (rc_value e) (fl_of_Z fo 0) = false).
  { intros t d e Hd Hb' He. destruct (nth_error_split _ _ Hd) as (l1 & l2 & ET & Hl1). rewrite ET in He, Hs.
    rewrite skipn_app, <- Hl1, Nat.sub_diag, skipn_all in He. cbn in He. destruct He as [<-|He]; [assumption|].
    apply StronglySorted_app in Hs. destruct Hs as (_ & Hs & _). inversion Hs as [|? ? _ Hfa]; subst. rewrite Forall_forall in Hfa.
    apply (better_negtrans mode _ (rc_value d)); [|assumption]. rewrite <- rc_lt_better. apply Hfa, He. }
  assert (Hnone : forall e, In e (firstn (Z.to_nat 0) T) -> better fo mode (fl_of_Z fo 0) (rc_value e) = false) by (intros e []).
  (* fixed number of chosen terms *)
  assert (Hfix : forall t, lo = hi -> t - negatives (m_elements r) = lo -> 0 <= t <= Z.of_nat len ->
    (m_min r < t - negatives (m_elements r) -> forall e, In e (firstn (Z.to_nat t) T) -> better fo mode (fl_of_Z fo 0) (rc_value e) = false) /\
    (t - negatives (m_elements r) < m_max r -> forall e, In e (skipn (Z.to_nat t) T) -> better fo mode (rc_value e) (fl_of_Z fo 0) = false)).
  { intros t El Et Ht. destruct Hb as [(Em & -> & ->)|(_ & _ & Em & Hlo & Hhi & Hle)]; [split; intros; lia|]. split.
    - intros Hm. assert (t = 0) as -> by lia. apply Hnone.
    - intros Hm. assert (t = Z.of_nat len) as -> by lia. rewrite Nat2Z.id, skipn_all2 by lia. intros e []. }
  assert (Hloop : forall lo' hi', lo <> hi -> lo' = lo + negatives (m_elements r) -> hi' = hi + negatives (m_elements r) ->
    select_loop fo ro mode ((T ++ rest) ++ after) (Z.to_nat (hi' - lo' + 1)) lo' hi' g = Some (sel, g') ->
    exists t, sel = t - 1 /\ 0 <= t <= Z.of_nat len /\ lo <= t - negatives (m_elements r) <= hi /\
    (m_min r < t - negatives (m_elements r) -> forall e, In e (firstn (Z.to_nat t) T) -> better fo mode (fl_of_Z fo 0) (rc_value e) = false) /\
    (t - negatives (m_elements r) < m_max r -> forall e, In e (skipn (Z.to_nat t) T) -> better fo mode (rc_value e) (fl_of_Z fo 0) = false)).
  { intros lo' hi' Hne -> -> Hl. destruct Hb as [(Em & -> & ->)|(_ & _ & Em & Hlo & Hhi & Hle)]; [lia|].
    apply select_loop_inv in Hl; [|lia|lia]. destruct Hl as (t & -> & Hr & Hbd & Hgd).
    assert (Ht : 0 <= t <= Z.of_nat len /\ lo <= t - negatives (m_elements r) <= hi) by lia. exists t. split; [reflexivity|].
    split; [lia|]. split; [lia|]. split.
    - intros Hm. destruct (Z.eq_dec (t - negatives (m_elements r)) lo) as [E|E]; [assert (t = 0) as -> by lia; apply Hnone|].
      intros e He. apply (Hbefore (Z.to_nat t) (Z.to_nat (lo + negatives (m_elements r))) e); [lia| |lia|assumption].
      intros i d Hi Hd. apply (Hbd (Z.of_nat i)); [lia|]. rewrite Nat2Z.id, nth_error_app1 by (rewrite app_length; lia).
      rewrite nth_error_app1 by lia. assumption.
    - intros Hm. destruct (Z.eq_dec t (Z.of_nat len)) as [->|E]; [rewrite Nat2Z.id, skipn_all2 by lia; intros e []|].
      destruct (nth_error T (Z.to_nat t)) as [d|] eqn:Ed; [|apply nth_error_None in Ed; lia]. intros e He. apply (Hafter _ d e Ed); [|assumption].
      apply Hgd; [lia|lia|]. rewrite nth_error_app1 by (rewrite app_length; lia). rewrite nth_error_app1 by lia. assumption. }
  destruct cl; try contradiction.
  - inversion Hsel; subst sel g'. destruct Hb as [(Em & -> & ->)|(He1 & _)]; [|contradiction].
    exists (Z.min (m_min r) (Z.of_nat len)). split; [reflexivity|]. split; [lia|]. split; [lia|]. apply Hfix; lia.
  - inversion Hsel; subst sel g'. destruct Hb as [(Em & -> & ->)|(_ & He1 & _)]; [|contradiction].
    eexists. split; [reflexivity|]. split; [lia|]. split; [lia|]. apply Hfix; lia.
  - destruct (Z.eqb_spec lo hi) as [El|El].
    + inversion Hsel; subst sel g'. eexists. split; [reflexivity|]. split; [lia|]. split; [lia|]. apply Hfix; lia.
    + apply (Hloop _ _ El) in Hsel; [exact Hsel| |]; lia.
  - destruct (Z.eqb_spec lo hi) as [El|El].
    + inversion Hsel; subst sel g'. eexists. split; [reflexivity|]. split; [lia|]. split; [lia|]. apply Hfix; lia.
    + apply (Hloop _ _ El) in Hsel; [exact Hsel| |]; lia.
Qed.

(** ** Values *)
Lemma column_exact v : (v < n)%nat ->
  mx_column (sv_ap sv) v = Some (map (fun p => (fst (fst p), snd (fst p))) (occurrences cs v)).
Proof.
  intros Hv. destruct (mk_fields fo cl cs n c mode after x0 g0 sv s0 Hmk) as (ap & b & Hap & _ & Hsv & _).
  assert (Eap : sv_ap sv = ap) by (rewrite Hsv; reflexivity).
  rewrite Eap, (mx_column_ok (map m_elements cs) n (vars_in_range cs n Hrows) (has_element fo cl cs n c mode after x0 g0 sv s0 Hmk) ap v Hap Hv).
  f_equal. rewrite places_accessors, filter_map, map_map. unfold occurrences.
  rewrite (filter_ext (fun a => (ac_col (access_of a) =? v)%nat) (fun p => (f_var (snd p) =? v)%nat)) by (intros [[slot row] e]; reflexivity).
  apply map_ext. intros [[slot row] e]. reflexivity.
Qed.
Lemma row_exact k r : nth_error cs k = Some r ->
  mx_row (sv_ap sv) k = Some (map (fun p => (fst (fst p), f_var (snd p))) (row_places k (elements_before (map m_elements cs) k) (m_elements r))).
Proof.
  intros Hk. destruct (mk_fields fo cl cs n c mode after x0 g0 sv s0 Hmk) as (ap & b & Hap & _ & Hsv & _).
  assert (Eap : sv_ap sv = ap) by (rewrite Hsv; reflexivity).
  assert (Hk' : nth_error (map m_elements cs) k = Some (m_elements r)) by (rewrite nth_error_map, Hk; reflexivity).
  pose proof (has_element fo cl cs n c mode after x0 g0 sv s0 Hmk) as Hhe.
  rewrite Eap, (mx_row_ok (map m_elements cs) n (vars_in_range cs n Hrows) Hhe ap k (m_elements r) Hap Hk' (n_pos fo cl cs n c mode after x0 g0 sv s0 Hmk Hrows)).
  f_equal. rewrite row_places_accessors, map_map. apply map_ext. intros [[slot row] e]. reflexivity.
Qed.

Lemma row_places_in i l : forall slot p, In p (row_places i slot l) <-> exists j e, nth_error l j = Some e /\ p = (slot + j, i, e)%nat.
Proof.
  induction l as [|e l IH]; intros slot p; cbn [row_places In].
  - split; [intros []|intros ([|j] & e & H & _); discriminate].
  - rewrite IH. split.
    + intros [<-|(j & e' & H & ->)]; [exists 0%nat, e|exists (S j), e']; (split; [assumption || reflexivity|]); repeat (f_equal; try lia).
    + intros ([|j] & e' & H & ->); [left; inversion H; subst; repeat (f_equal; try lia)|right; exists j, e'; split; [exact H|repeat (f_equal; try lia)]].
Qed.
Lemma places_in rows : forall i slot p, In p (places i slot rows) <->
  exists k j r e, nth_error rows k = Some r /\ nth_error (m_elements r) j = Some e /\
    p = (slot + elements_before (map m_elements rows) k + j, i + k, e)%nat.
Proof.
  induction rows as [|r rows IH]; intros i slot p; cbn [places].
  - split; [intros []|intros ([|k] & j & r & e & H & _); discriminate].
  - rewrite in_app_iff, row_places_in, IH. split.
    + intros [(j & e & H & ->)|(k & j & r' & e & H1 & H2 & ->)].
      * exists 0%nat, j, r, e. split; [reflexivity|]. split; [assumption|]. unfold elements_before. cbn. repeat (f_equal; try lia).
      * exists (S k), j, r', e. split; [exact H1|]. split; [assumption|]. unfold elements_before. cbn [map firstn fold_right]. repeat (f_equal; try lia).
    + intros ([|k] & j & r' & e & H1 & H2 & ->).
      * left. inversion H1; subst r'. exists j, e. split; [assumption|]. unfold elements_before. cbn. repeat (f_equal; try lia).
      * right. exists k, j, r', e. split; [exact H1|]. split; [assumption|]. unfold elements_before. cbn [map firstn fold_right]. repeat (f_equal; try lia).
Qed.
Lemma elements_before_lt (rows : list merged) : forall k k' r, nth_error rows k = Some r -> (k < k')%nat ->
  (elements_before (map m_elements rows) k + length (m_elements r) <= elements_before (map m_elements rows) k')%nat.
Proof.
  unfold elements_before. induction rows as [|d rows IH]; intros k k' r Hk Hlt; [destruct k; discriminate|].
  destruct k' as [|k']; [lia|]. destruct k as [|k]; cbn in *; [inversion Hk; subst; lia|]. specialize (IH k k' r Hk). lia.
Qed.

Definition in_slots (row : list (nat * nat)) (s : nat) : bool := existsb (Nat.eqb s) (map fst row).
Lemma decrease_values theta row : forall P P', NoDup (map fst row) -> decrease_preference fo theta row P = Some P' ->
  forall s p, nth_error P s = Some p -> nth_error P' s = Some (if in_slots row s then fl_mul fo p theta else p).
Proof.
  induction row as [|[slot col] row IH]; intros P P' Hnd H s p Hp; cbn [decrease_preference] in H; [inversion H; subst; exact Hp|].
  destruct (list_modify P slot (fun q => fl_mul fo q theta)) as [P1|] eqn:E; [|discriminate]. cbn [bind] in H.
  cbn [map fst] in Hnd. inversion Hnd as [|? ? Hni Hnd']; subst.
  unfold list_modify in E. destruct (nth_error P slot) as [q|] eqn:Eq; [|discriminate]. cbn [bind] in E.
  unfold in_slots. cbn [map fst existsb]. destruct (Nat.eqb_spec s slot) as [->|Hs]; cbn [orb].
  - rewrite Hp in Eq. inversion Eq; subst q.
    rewrite (IH P1 P' Hnd' H slot (fl_mul fo p theta)) by (rewrite (list_upd_nth _ _ _ _ _ E), Nat.eqb_refl; reflexivity).
    assert (En : in_slots row slot = false).
    { unfold in_slots. apply Bool.not_true_iff_false. intros Hex. apply existsb_exists in Hex. destruct Hex as (s & Hin & Hs).
      apply Nat.eqb_eq in Hs. subst s. contradiction. }
    rewrite En. reflexivity.
  - apply (IH P1 P' Hnd' H s p). rewrite (list_upd_nth _ _ _ _ _ E). destruct (Nat.eqb_spec s slot); [contradiction|assumption].
Qed.
Lemma row_slots k slot l : map fst (map (fun p => (fst (fst p), f_var (snd p))) (row_places k slot l)) = seq slot (length l).
Proof. revert slot. induction l as [|e l IH]; intros slot; cbn; [reflexivity|]. rewrite IH. reflexivity. Qed.

(** The sums of a column are the sums over the occurrences of the variable. *)
Lemma sum_column_value theta k r row P P' pi v : nth_error cs k = Some r -> mx_row (sv_ap sv) k = Some row ->
  length P = elements_number cs -> length pi = length cs -> decrease_preference fo theta row P = Some P' ->
  forall l, (forall p, In p l -> In p (occurrences cs v)) -> forall a b,
  sum_column fo sv P' pi (map (fun p => (fst (fst p), snd (fst p))) l) a b =
  Some (fold_left (fun s p => fl_add fo s (fl_mul fo (fl_of_Z fo (f_factor (snd p))) (multiplier fo pi p))) l a,
        fold_left (fun s p => fl_add fo s (fl_mul fo (fl_of_Z fo (f_factor (snd p))) (preference fo theta k P p))) l b).
Proof.
  intros Hk Hrow HlP Hlpi Hdec. rewrite (row_exact k r Hk) in Hrow. inversion Hrow as [Erow]. clear Hrow.
  assert (Hnd : NoDup (map fst row)) by (rewrite <- Erow, row_slots; apply seq_NoDup).
  induction l as [|[[slot i] e] l IH]; intros Hl a b; cbn [map sum_column fold_left fst snd]; [reflexivity|].
  assert (Hin : In (slot, i, e) (places 0 0 cs)).
  { specialize (Hl _ (or_introl eq_refl)). unfold occurrences in Hl. apply filter_In in Hl. apply Hl. }
  apply places_in in Hin. destruct Hin as (k' & j & r' & e' & Hk' & Hj & E). cbn [Nat.add] in E. injection E as -> -> <-.
  assert (Hjl : (j < length (m_elements r'))%nat) by (apply nth_error_Some; congruence).
  pose proof (elements_before_S cs k' r' Hk') as Hle.
  destruct (nth_error pi k') as [q|] eqn:Eq.
  2: { apply nth_error_None in Eq. assert (k' < length cs)%nat by (apply nth_error_Some; congruence). lia. }
  cbn [bind].
  destruct (nth_error P (elements_before (map m_elements cs) k' + j)) as [p|] eqn:Ep; [|apply nth_error_None in Ep; lia].
  rewrite (decrease_values theta row P P' Hnd Hdec _ _ Ep). cbn [bind].
  assert (Eslot : in_slots row (elements_before (map m_elements cs) k' + j) = Nat.eqb k' k).
  { unfold in_slots. rewrite <- Erow, row_slots. apply Bool.eq_iff_eq_true. rewrite existsb_exists, Nat.eqb_eq. split.
    - intros (s & Hs & Es). apply Nat.eqb_eq in Es. subst s. apply in_seq in Hs. destruct (Nat.lt_trichotomy k' k) as [Hlt|[->|Hlt]]; [|reflexivity|].
      + pose proof (elements_before_lt cs k' k r' Hk' Hlt). lia.
      + pose proof (elements_before_lt cs k k' r Hk Hlt). lia.
    - intros ->. rewrite Hk in Hk'. inversion Hk'; subst r'. eexists. split; [|apply Nat.eqb_refl]. apply in_seq. lia. }
  rewrite Eslot.
  assert (Epi : multiplier fo pi (elements_before (map m_elements cs) k' + j, k', e)%nat = q) by (unfold multiplier; apply nth_error_nth; exact Eq).
  assert (Epr : preference fo theta k P (elements_before (map m_elements cs) k' + j, k', e)%nat = if Nat.eqb k' k then fl_mul fo p theta else p).
  { unfold preference. rewrite (nth_error_nth _ _ (fl_of_Z fo 0) Ep). reflexivity. }
  rewrite Epi, Epr.
  assert (Hfac : factor sv (elements_before (map m_elements cs) k' + j) = Some (f_factor e)).
  { destruct (row_matches fo cl cs n c mode after x0 g0 sv s0 Hmk Hrows k' r' Hk') as (row' & Hrow' & Hrel).
    rewrite (row_exact k' r' Hk') in Hrow'. inversion Hrow' as [Er']. clear Hrow'. clear -Hrel Er' Hj. subst row'.
    revert Hrel Hj. generalize (elements_before (map m_elements cs) k') as slot. revert j. generalize (m_elements r') as els.
    induction els as [|d els IH]; intros j slot Hrel Hj; [destruct j; discriminate|]. cbn [row_places map] in Hrel. inversion Hrel as [|? ? ? ? Hh Ht]; subst.
    destruct j as [|j]; cbn in Hj.
    - inversion Hj; subst d. destruct Hh as [Hh _]. rewrite Nat.add_0_r. exact Hh.
    - rewrite <- Nat.add_succ_comm. apply IH; assumption. }
  destruct (sv_fields) as (Esc & _). pose proof (factor_class sv _ _ Hfac) as Hone.
  assert (Hl' : forall q0, In q0 l -> In q0 (occurrences cs v)) by (intros; apply Hl; right; assumption).
  rewrite Hfac. cbn [bind]. destruct (sv_class sv); rewrite IH by exact Hl'; rewrite ?Hone, ?(of_mul_1 _ Hfl); reflexivity.
Qed.

Section Row.
Variables (theta : F) (k : nat) (r : merged) (row : list (nat * nat)) (s : state F G) (P' : list F).
Hypothesis Hk : nth_error cs k = Some r.
Hypothesis Hrow : mx_row (sv_ap sv) k = Some row.
Hypothesis Hs : sized cs n s.
Hypothesis Hdec : decrease_preference fo theta row (s_P s) = Some P'.

Definition base_value (e : felem) (q : F) : Prop := exists cost, c (f_var e) (s_x s) = Some cost /\
  q = term_cost fo (f_factor e) (reduced_cost fo cs theta k (s_P s) (s_pi s) (f_var e) cost).

Lemma reduced_costs_values l : forall els R rs cz R' rs' cz', Forall2 (row_rel cs sv) l els -> (forall e, In e els -> (f_var e < n)%nat) ->
  compute_reduced_costs fo sv (s_x s) P' (s_pi s) l R rs cz = Some (R', rs', cz') ->
  (forall j, (j < rs)%nat -> nth_error R' j = nth_error R j) /\
  (forall i e, nth_error els i = Some e -> exists el, nth_error R' (rs + i) = Some el /\ rc_id el = (rs + i)%nat /\
     rc_f el = f_factor e /\ base_value e (rc_value el)).
Proof.
  induction l as [|[slot col] l IH]; intros els R rs cz R' rs' cz' Hrel Hv H; inversion Hrel as [|? e ? els' Hh Ht]; subst; cbn [compute_reduced_costs] in H.
  - inversion H; subst. split; [reflexivity|]. intros [|i] e He; discriminate.
  - destruct Hh as (Hfac & Hcol & _). cbn [fst snd] in Hfac, Hcol. subst col.
    assert (Hve : (f_var e < n)%nat) by (apply Hv; left; reflexivity).
    rewrite (column_exact _ Hve) in H. cbn [bind] in H.
    destruct Hs as (Hsx & HsP & Hspi & HsR).
    rewrite (sum_column_value theta k r row (s_P s) P' (s_pi s) (f_var e) Hk Hrow HsP Hspi Hdec _ (fun p Hp => Hp)) in H. cbn [bind] in H.
    destruct sv_fields as (_ & Ec & _). rewrite Ec in H.
    destruct (c (f_var e) (s_x s)) as [cost|] eqn:Ecost; [|discriminate]. cbn [bind] in H. rewrite Hfac in H. cbn [bind] in H.
    match type of H with context [list_upd R rs ?x] => set (el := x) in * end.
    destruct (list_upd R rs el) as [R1|] eqn:E1; [|discriminate]. cbn [bind] in H.
    destruct (IH els' R1 _ _ _ _ _ Ht (fun e' He' => Hv e' (or_intror He')) H) as [Hold Hnew]. split.
    + intros j Hj. rewrite Hold by lia. rewrite (list_upd_nth _ _ _ _ _ E1). destruct (Nat.eqb_spec j rs); [lia|reflexivity].
    + intros [|i] e' He'.
      * cbn in He'. inversion He'; subst e'. exists el. rewrite Nat.add_0_r. split; [|split; [|split]].
        -- rewrite Hold by lia. rewrite (list_upd_nth _ _ _ _ _ E1), Nat.eqb_refl. reflexivity.
        -- unfold el. destruct (f_factor e <? 0); reflexivity.
        -- unfold el. destruct (f_factor e <? 0); reflexivity.
        -- exists cost. split; [assumption|]. unfold el, term_cost. destruct (f_factor e <? 0); reflexivity.
      * cbn in He'. destruct (Hnew i e' He') as (d & Hd & Hid & Hrest). exists d. rewrite <- Nat.add_succ_comm. auto.
Qed.

Definition push_cost (el : rc F) : option F :=
  match cl with
  | S_equalities_01 | S_inequalities_01 => c (rc_id el) (s_x s)
  | _ => do (_, col) <- nth_error row (rc_id el); c col (s_x s)
  end.
Lemma push_costs_values amp m : forall R i R', push_costs fo sv (s_x s) row amp R m i = Some R' ->
  (forall j, (j < i)%nat -> nth_error R' j = nth_error R j) /\
  (forall j el, (i <= j < i + m)%nat -> nth_error R j = Some el -> exists cost, push_cost el = Some cost /\
     nth_error R' j = Some (mk_rc (fl_add fo (rc_value el) (fl_mul fo amp cost)) (rc_f el) (rc_id el))).
Proof.
  destruct sv_fields as (Esc & Ec & _).
  induction m as [|m IH]; intros R i R' H; cbn [push_costs] in H; [inversion H; subst; split; [reflexivity|intros; lia]|].
  destruct (nth_error R i) as [el|] eqn:E; [|discriminate]. cbn [bind] in H. rewrite Esc, Ec in H.
  change (match cl with
           | S_equalities_01 | S_inequalities_01 => c (rc_id el) (s_x s)
           | _ => do (_, col) <- nth_error row (rc_id el); c col (s_x s)
           end) with (push_cost el) in H.
  destruct (push_cost el) as [cost|] eqn:Epc; [|discriminate]. cbn [bind] in H.
  destruct (list_upd R i _) as [R1|] eqn:E1; [|discriminate]. cbn [bind] in H.
  destruct (IH _ _ _ H) as [Hold Hnew]. split.
  - intros j Hj. rewrite Hold by lia. rewrite (list_upd_nth _ _ _ _ _ E1). destruct (Nat.eqb_spec j i); [lia|reflexivity].
  - intros j el' Hj Hel'. destruct (Nat.eq_dec j i) as [->|Hne].
    + rewrite E in Hel'. inversion Hel'; subst el'. exists cost. split; [assumption|]. rewrite Hold by lia.
      rewrite (list_upd_nth _ _ _ _ _ E1), Nat.eqb_refl. reflexivity.
    + apply Hnew; [lia|]. rewrite (list_upd_nth _ _ _ _ _ E1). destruct (Nat.eqb_spec j i); [contradiction|assumption].
Qed.
End Row.

(** The variable whose cost a push adds to the term at position [i]. *)
Definition pushed_variable (i : nat) (e : felem) : nat :=
  match cl with S_equalities_01 | S_inequalities_01 => i | _ => f_var e end.
Definition value_of (push : option F) (theta : F) (k : nat) (s : state F G) (i : nat) (e : felem) (q : F) : Prop :=
  exists b, base_value theta k s e b /\
    match push with
    | None => q = b
    | Some amp => exists cost, c (pushed_variable i e) (s_x s) = Some cost /\ q = fl_add fo b (fl_mul fo amp cost)
    end.
Lemma value_of_fun push theta k s i e q q' : value_of push theta k s i e q -> value_of push theta k s i e q' -> q = q'.
Proof.
  intros (b & (co & Hco & ->) & H) (b' & (co' & Hco' & ->) & H'). rewrite Hco in Hco'. inversion Hco'; subst co'.
  destruct push as [amp|]; [|congruence]. destruct H as (d & Hd & ->), H' as (d' & Hd' & ->). congruence.
Qed.

Lemma update_greedy push kappa delta theta k r s s' b val : nth_error cs k = Some r -> row_satisfiable r -> sized cs n s ->
  update_row fo ro std_sort sv push kappa delta theta k s = Some (s', b) ->
  (forall i e, nth_error (m_elements r) i = Some e -> value_of push theta k s i e (val i)) ->
  greedy fo mode r val (s_x s').
Proof.
  intros Hk [x1 Hx1] Hs Hup Hval. pose proof Hs as (Hsx & HsP & Hspi & HsR).
  destruct (row_matches fo cl cs n c mode after x0 g0 sv s0 Hmk Hrows k r Hk) as (row & Hrow & Hrel).
  destruct (bounds_at fo cl cs n c mode after x0 g0 sv s0 Hmk k r Hk) as (lo & hi & Hb & Hc).
  destruct (ctor_row_facts _ _ _ _ (not_Z _ Hcl) Hc) as [Hf _].
  destruct (Hrows r (nth_error_In _ _ Hk)) as [Hnd Hvar]. pose proof (Rows_proofs.Forall2_length _ _ _ Hrel) as Hlen.
  assert (Hcap : (length row <= length (s_R s))%nat) by (rewrite HsR, Hlen; apply longest_row_in; eapply nth_error_In; eassumption).
  unfold update_row in Hup. rewrite Hrow in Hup. cbn [bind] in Hup.
  destruct (decrease_preference fo theta row (s_P s)) as [P|] eqn:HP; [|discriminate]. cbn [bind] in Hup.
  assert (HlP : length P = elements_number cs).
  { assert (Hrowb : forall p, In p row -> (fst p < length (s_P s))%nat).
    { rewrite HsP. intros p Hp. clear -Hrel Hp. induction Hrel as [|q e row' els Hq HF IH]; [destruct Hp|].
      destruct Hp as [<-|Hp]; [apply Hq|apply IH; assumption]. }
    destruct (decrease_ok fo theta row (s_P s) Hrowb) as (P2 & HP2 & HlP2). rewrite HP in HP2. inversion HP2; subst P2. lia. }
  destruct (reduced_costs_ok fo cl cs n c mode after x0 g0 sv s0 Hmk Hrows Hcost (s_x s) P (s_pi s) Hsx ltac:(lia) Hspi row _ Hrel Hvar (s_R s) 0%nat 0) as (new & Hnew & Hkey); [lia|].
  destruct (reduced_costs_values theta k r row s P Hk Hrow Hs HP row _ _ _ _ _ _ _ Hrel Hvar Hnew) as [_ Hvals].
  rewrite Hnew in Hup. cbn [bind firstn app Nat.add] in Hup, Hvals. rewrite Hlen in Hup, Hkey, Hvals. 
  assert (Hlnew : length new = length (m_elements r)).
  { apply (f_equal (@length _)) in Hkey. rewrite map_length, combine_length, seq_length, map_length, Nat.min_id in Hkey. assumption. }
  set (R1 := new ++ skipn (length (m_elements r)) (s_R s)) in *.
  assert (HlR1 : length R1 = longest_row cs) by (unfold R1; rewrite app_length, skipn_length; lia).
  destruct (match push with None => Some R1 | Some amp => push_costs fo sv (s_x s) row amp R1 (length (m_elements r)) 0 end) as [R2|] eqn:Epush; [|discriminate].
  cbn [bind] in Hup.
  assert (HR2 : forall i e, nth_error (m_elements r) i = Some e -> exists el, nth_error R2 i = Some el /\ rc_id el = i /\ rc_f el = f_factor e /\ rc_value el = val i).
  { intros i e He. destruct (Hvals i e He) as (el & Hel & Hid & Hfe & Hbase).
    assert (Hi : (i < length (m_elements r))%nat) by (apply nth_error_Some; congruence).
    destruct push as [amp|].
    - destruct (push_costs_values row s amp _ _ _ _ Epush) as [_ Hpv]. destruct (Hpv i el) as (cost & Hpc & Hn'); [lia|assumption|].
      eexists. split; [exact Hn'|]. cbn [rc_id rc_f rc_value]. split; [assumption|]. split; [assumption|].
      apply (value_of_fun (Some amp) theta k s i e); [|apply Hval, He]. exists (rc_value el). split; [assumption|].
      exists cost. split; [|reflexivity]. rewrite <- Hpc. unfold push_cost, pushed_variable. rewrite Hid.
      assert (Hcol : exists slot, nth_error row i = Some (slot, f_var e)).
      { clear -Hrel He. revert i He. induction Hrel as [|[sl co] d row' els Hq HF IH]; intros [|i] He; try discriminate; cbn in He |- *.
        - inversion He; subst d. destruct Hq as (_ & Hq & _). cbn in Hq. subst co. eauto.
        - apply IH, He. }
      destruct Hcol as (slot & ->). cbn [bind]. destruct cl; reflexivity.
    - inversion Epush; subst R2. exists el. split; [assumption|]. split; [assumption|]. split; [assumption|].
      apply (value_of_fun None theta k s i e); [|apply Hval, He]. exists (rc_value el). auto. }
  assert (HlR2 : (length (m_elements r) <= length R2)%nat).
  { destruct (le_lt_dec (length (m_elements r)) (length R2)); [assumption|].
    destruct (nth_error (m_elements r) (length R2)) as [e|] eqn:Ee; [|apply nth_error_None in Ee; lia].
    destruct (HR2 _ e Ee) as (el & Hel & _). assert (length R2 < length R2)%nat by (apply nth_error_Some; congruence). lia. }
  assert (HlR2' : length R2 = longest_row cs).
  { destruct push as [amp|]; [|inversion Epush; subst; assumption]. rewrite <- HlR1. clear -Epush. revert Epush.
    generalize (length (m_elements r)) as m, 0%nat as i. revert R2. generalize R1 as R.
    intros R R2 m. revert R R2. induction m as [|m IH]; intros R R2 i H; cbn [push_costs] in H; [inversion H; reflexivity|].
    destruct (nth_error R i); [|discriminate]. cbn [bind] in H.
    match type of H with (do co <- ?a; _) = _ => destruct a as [co|]; [|discriminate] end. cbn [bind] in H.
    destruct (list_upd R i _) as [Ra|] eqn:E; [|discriminate]. cbn [bind] in H. rewrite (IH _ _ _ H). apply (list_upd_length _ _ _ _ E). }
  destruct sv_fields as (Esc & Esvc & Esm & Esa). rewrite Esm in Hup.
  destruct (calculator_sort_sorted mode R2 (length (m_elements r)) (s_g s)) as (T & HT & HpT & Hsorted).
  destruct (calculator_sort fo ro std_sort mode R2 (length (m_elements r)) (s_g s)) as [R3 g3]. cbn [fst] in HT.
  assert (Hfst : map rkey (firstn (length (m_elements r)) R2) = combine (seq 0 (length (m_elements r))) (map f_factor (m_elements r))).
  { apply nth_error_ext. intros i. rewrite nth_error_map. destruct (nth_error (m_elements r) i) as [e|] eqn:Ee.
    - destruct (HR2 i e Ee) as (el & Hel & Hid & Hfe & _). assert (Hi : (i < length (m_elements r))%nat) by (apply nth_error_Some; congruence).
      assert (E1 : nth_error (firstn (length (m_elements r)) R2) i = Some el).
      { rewrite <- Hel. rewrite <- (firstn_skipn (length (m_elements r)) R2) at 2. rewrite nth_error_app1 by (rewrite firstn_length; lia). reflexivity. }
      rewrite E1. cbn. symmetry. unfold rkey. rewrite Hid, Hfe. clear -Ee.
      assert (Hgen : forall l q j, nth_error l j = Some e -> nth_error (combine (seq q (length l)) (map f_factor l)) j = Some ((q + j)%nat, f_factor e)).
      { clear. induction l as [|d l IH]; intros q [|j] H; try discriminate; cbn in *; [inversion H; subst; rewrite Nat.add_0_r; reflexivity|].
        rewrite (IH (S q) j H). do 2 f_equal. lia. }
      rewrite (Hgen _ 0%nat i Ee). reflexivity.
    - apply nth_error_None in Ee. assert (E1 : nth_error (firstn (length (m_elements r)) R2) i = None) by (apply nth_error_None; rewrite firstn_length; lia).
      assert (E2 : nth_error (combine (seq 0 (length (m_elements r))) (map f_factor (m_elements r))) i = None)
        by (apply nth_error_None; rewrite combine_length, seq_length, map_length; lia).
      rewrite E1, E2. reflexivity. }
  assert (HTkey : Permutation (map rkey T) (combine (seq 0 (length (m_elements r))) (map f_factor (m_elements r)))).
  { rewrite <- Hfst. apply Permutation_map, HpT. }
  assert (HlT : length T = length (m_elements r)) by (apply Permutation_length in HpT; rewrite HpT, firstn_length_le by lia; reflexivity).
  assert (HlR3 : length R3 = longest_row cs) by (rewrite HT, app_length, skipn_length; lia).
  unfold bound_min, bound_max in Hup. rewrite Hb in Hup. cbn [option_map bind fst snd] in Hup.
  destruct (select_variables fo ro sv R3 (length (m_elements r)) (0 + negatives (m_elements r)) lo hi g3) as [[sel g4]|] eqn:Hsel; [|discriminate].
  cbn [bind] in Hup. rewrite HT in Hsel.
  destruct (select_inv T _ r lo hi k g3 g4 sel x1 Hk Hc (proj2 (bounds_same cl r lo hi x1 Hc) Hx1) HlT Hsorted Hsel) as (t & -> & Ht & Hlo & Hbad & Hgood).
  destruct (affect_ok fo cl cs n c mode after x0 g0 sv s0 Hmk Hcl Hrows k r row t kappa delta (mk_state (s_x s) P (s_pi s) R3 g4) T (skipn (length (m_elements r)) R2) lo hi
     Hk Hrow Hrel Hb Hc) as (s2 & b2 & Ha & Hsz & _ & Hsat & Hout & _ & Hlhs & Hup1 & Hup2); try assumption.
  { unfold sized. cbn. repeat split; lia. }
  rewrite Ha in Hup. inversion Hup; subst s2 b2. clear Hup.
  assert (Hcolr : forall i e (el : rc F), nth_error (m_elements r) i = Some e -> rc_id el = i -> col_of row el = f_var e).
  { intros i e el He Hid. unfold col_of. rewrite Hid. clear -Hrel He. revert i He.
    induction Hrel as [|[sl co] d row' els Hq HF IH]; intros [|i] He; try discriminate; cbn in He |- *.
    - inversion He; subst d. destruct Hq as (_ & Hq & _). exact Hq.
    - apply IH, He. }
  assert (Hunit : forall i e, nth_error (m_elements r) i = Some e -> f_factor e = 1 \/ f_factor e = -1).
  { intros i e He. specialize (Hf e (nth_error_In _ _ He)). destruct cl; cbn in Hf; auto. }
  assert (Hloc : forall i e, nth_error (m_elements r) i = Some e -> exists el, rc_value el = val i /\
    ((In el (firstn (Z.to_nat t) T) /\ chosen (s_x s') e) \/ (In el (skipn (Z.to_nat t) T) /\ ~ chosen (s_x s') e))).
  { intros i e He. destruct (HR2 i e He) as (el & Hel & Hid & Hfe & Hv). exists el. split; [assumption|].
    assert (Hi : (i < length (m_elements r))%nat) by (apply nth_error_Some; congruence).
    assert (HelT : In el T).
    { apply (Permutation_in _ (Permutation_sym HpT)). apply (nth_error_In _ i). rewrite <- Hel.
      rewrite <- (firstn_skipn (length (m_elements r)) R2) at 2. rewrite nth_error_app1 by (rewrite firstn_length; lia). reflexivity. }
    rewrite <- (firstn_skipn (Z.to_nat t) T) in HelT. apply in_app_or in HelT.
    assert (Hneg : is_negative el = (f_factor e <? 0)) by (unfold is_negative; rewrite Hfe; reflexivity).
    unfold chosen. rewrite <- (Hcolr i e el He Hid).
    destruct HelT as [HelT|HelT]; [left|right]; (split; [assumption|]).
    - rewrite (Hup1 el HelT), Hneg. destruct (Hunit i e He) as [->| ->]; reflexivity.
    - rewrite (Hup2 el HelT), Hneg. destruct (Hunit i e He) as [->| ->]; discriminate. }
  unfold greedy. cbv zeta. rewrite Hlhs. split; [|split].
  - intros i e i' e' He He' Hch Hnch. destruct (Hloc i e He) as (el & <- & [[Hel _]|[_ Hn]]); [|contradiction].
    destruct (Hloc i' e' He') as (el' & <- & [[_ Hn]|[Hel' _]]); [contradiction|].
    rewrite <- rc_lt_better. rewrite <- (firstn_skipn (Z.to_nat t) T) in Hsorted. apply StronglySorted_app in Hsorted.
    destruct Hsorted as (_ & _ & Hcross). apply Hcross; assumption.
  - intros Hm i e He Hch. destruct (Hloc i e He) as (el & <- & [[Hel _]|[_ Hn]]); [|contradiction]. apply Hbad; assumption.
  - intros Hm i e He Hch. destruct (Hloc i e He) as (el & <- & [[_ Hn]|[Hel _]]); [contradiction|]. apply Hgood; assumption.
Qed.
End Solver.
End Proofs.
