(** Preprocessing without assuming that the problem has a solution: a constraint that is dropped
    is satisfied by every completion, or all its variables have been fixed. *)
From Verif Require Import Base Problem_model Problem_spec Merged_model Merged_spec Merged_proofs Classify_model Preprocess_model Preprocess_spec
  Preprocess_proofs Preprocess_proofs2 Preprocess_proofs3.
Open Scope Z_scope.

Definition settled (op : operator_type) (vars : vmap) (lf : lifo) (c : constraint) : Prop :=
  (forall x, agree2 x vars lf -> csat op x c) \/
  (forall e, In e (c_elements c) -> In (f_var e) (vkeys vars) \/ In (f_var e) (vkeys lf)).
Lemma settled_incl op vars lf lf' c : incl lf lf' -> settled op vars lf c -> settled op vars lf' c.
Proof.
  intros Hi [H|H]; [ left; intros x Hx; apply H; eapply agree2_incl; eassumption |].
  right. intros e He. destruct (H e He) as [K|K]; [ auto |]. right. apply vkeys_in in K. destruct K as [b K]. apply vkeys_in. eauto.
Qed.
Lemma settled_pop op vars lf v b c : settled op vars ((v, b) :: lf) c -> settled op (vars ++ [(v, b)]) lf c.
Proof.
  intros [H|H].
  - left. intros x Hx. apply H. intros u d [Hu|[Hu|Hu]]; apply Hx; [ left; apply in_or_app; auto | left; apply in_or_app; right; left; exact Hu | auto ].
  - right. intros e He. unfold vkeys in *. rewrite map_app, in_app_iff. destruct (H e He) as [K|[K|K]]; [ auto | | auto ]. left. right. left. exact K.
Qed.

(** Keys are distinct and name variables. *)
Definition keys_ok (n : nat) (vars : vmap) (lf : lifo) : Prop :=
  (forall v, In v (vkeys vars) \/ In v (vkeys lf) -> (v < n)%nat) /\
  NoDup (vkeys vars) /\ NoDup (vkeys lf) /\ (forall v, In v (vkeys vars) -> ~ In v (vkeys lf)).
Lemma keys_pop n vars lf v b : keys_ok n vars ((v, b) :: lf) -> keys_ok n (vars ++ [(v, b)]) lf.
Proof.
  intros (H1 & H2 & H3 & H4). cbn in H3. inversion H3 as [ |? ? Hnot H3' ]; subst. unfold keys_ok, vkeys in *. rewrite map_app. cbn [map fst] in *.
  split; [ | split; [ | split; [ exact H3' | ] ] ].
  - intros u [Hu|Hu]; [ apply in_app_or in Hu; destruct Hu as [Hu|[Hu|[]]] | ]; apply H1; cbn; auto.
  - apply Merged_proofs.NoDup_app_one; [ exact H2 |]. intros H. apply (H4 v); [ exact H | left; reflexivity ].
  - intros u Hu Hu'. apply in_app_or in Hu. destruct Hu as [Hu|[Hu|[]]]; [ apply (H4 u Hu); right; exact Hu' | subst u; contradiction ].
Qed.
Lemma keys_emplace n vars lf u b : keys_ok n vars lf -> (u < n)%nat -> vfind vars u = None ->
  keys_ok n vars (lifo_emplace lf u b) /\ In u (vkeys (lifo_emplace lf u b)) /\ incl lf (lifo_emplace lf u b).
Proof.
  intros (H1 & H2 & H3 & H4) Hu Hn. unfold lifo_emplace. destruct (vfind lf u) as [b'|] eqn:E.
  - apply vfind_some in E. split; [ repeat split; assumption |]. split; [ apply vkeys_in; eauto | apply incl_refl ].
  - split; [ | split; [ left; reflexivity | apply incl_tl, incl_refl ] ]. split; [ | split; [ exact H2 | split ] ].
    + intros v [H|[H|H]]; [ apply H1; auto | cbn in H; subst v; exact Hu | apply H1; auto ].
    + cbn. constructor; [ apply vfind_none; exact E | exact H3 ].
    + intros v Hv [H|H]; [ cbn in H; subst v; apply vfind_none in Hn; contradiction | apply (H4 v); assumption ].
Qed.

(** ** One constraint *)
Lemma reduce_loop_none vars l : forall res rem res', reduce_loop vars l res rem = Ok (None, res') ->
  rem = None /\ forall e, In e l -> In (f_var e) (vkeys vars).
Proof.
  induction l as [ |e l IH ]; intros res rem res' H; cbn [reduce_loop] in H; [ inversion H; subst; split; [ reflexivity | intros e [] ] |].
  destruct (vfind vars (f_var e)) as [b|] eqn:E.
  - destruct (IH _ _ _ H) as [-> G]. split; [ reflexivity |]. intros z [<-|Hz]; [ apply vkeys_in; exists b; apply vfind_some; exact E | auto ].
  - destruct rem; [ discriminate |]. destruct (IH _ _ _ H) as [G _]. discriminate.
Qed.
Lemma single_free vars l e e' : (unaff vars l <= 1)%nat -> In e l -> In e' l -> vfind vars (f_var e) = None -> vfind vars (f_var e') = None -> e = e'.
Proof.
  intros Hu He He' H H'. unfold unaff in Hu.
  assert (F : In e (filter (is_free vars) l)) by (apply filter_In; split; [ exact He | unfold is_free; rewrite H; reflexivity ]).
  assert (F' : In e' (filter (is_free vars) l)) by (apply filter_In; split; [ exact He' | unfold is_free; rewrite H'; reflexivity ]).
  destruct (filter (is_free vars) l) as [ |a [ |b r ] ]; [ destruct F | | cbn in Hu; lia ]. destruct F as [<-|[]], F' as [<-|[]]. reflexivity.
Qed.
Lemma reduce_constraint_settles op c vars lf n r : keys_ok n vars lf -> (forall e, In e (c_elements c) -> (f_var e < n)%nat) ->
  (unaff vars (c_elements c) <= 1)%nat -> reduce_constraint op vars c = Ok r ->
  keys_ok n vars (lifo_emplace_opt lf r) /\ incl lf (lifo_emplace_opt lf r) /\ settled op vars (lifo_emplace_opt lf r) c.
Proof.
  intros Hk Hlt Hu H. unfold reduce_constraint, reduce in H.
  destruct (reduce_loop_spec vars (c_elements c) (c_value c) None ltac:(cbn; lia)) as (rem & res & Hr & Hl & He).
  rewrite Hr in H. cbn [obind] in H. destruct rem as [e|].
  - destruct (He e eq_refl) as [K|[Hin Hnone]]; [ discriminate |].
    assert (Hall : forall b, keys_ok n vars (lifo_emplace lf (f_var e) b) /\ incl lf (lifo_emplace lf (f_var e) b) /\ settled op vars (lifo_emplace lf (f_var e) b) c).
    { intros b. destruct (keys_emplace n vars lf (f_var e) b Hk (Hlt e Hin) Hnone) as (K1 & K2 & K3). split; [ exact K1 |]. split; [ exact K3 |].
      right. intros z Hz. destruct (vfind vars (f_var z)) as [d|] eqn:Ez; [ left; apply vkeys_in; exists d; apply vfind_some; exact Ez |].
      right. rewrite (single_free vars (c_elements c) z e Hu Hz Hin Ez Hnone). exact K2. }
    destruct (compare_op op (f_factor e * 0) res) eqn:E0; destruct (compare_op op (f_factor e * 1) res) eqn:E1; cbn [andb] in H; inversion H; subst r; cbn [lifo_emplace_opt]; try apply Hall.
    split; [ exact Hk |]. split; [ apply incl_refl |]. left. intros x Hx.
    assert (Hag : agrees x vars) by (intros v b Hv; apply Hx; left; exact Hv). specialize (Hl x Hag). change (rem_value x None) with 0 in Hl.
    apply (csat_compare op x c res (rem_value x (Some e))); [ lia |]. cbn [rem_value]. unfold bz. destruct (x (f_var e)); assumption.
  - inversion H; subst r. cbn [lifo_emplace_opt]. split; [ exact Hk |]. split; [ apply incl_refl |]. right. intros e Hin. left. apply (reduce_loop_none _ _ _ _ _ Hr); exact Hin.
Qed.

Section Unsat.
Variable pb : problem.
Let n := length (v_values (p_vars pb)).
Hypothesis Hidx : forall c e, In c (all_constraints pb) -> In e (c_elements c) -> (f_var e < n)%nat.
Hypothesis Hnd : forall c, In c (all_constraints pb) -> NoDup (map f_var (c_elements c)).
Local Notation keys := (keys_ok n).

Definition uok (op : operator_type) (vars : vmap) (lf : lifo) (pend : list nat) (cnt : list nat) : Prop :=
  length cnt = length (op_constraints op pb) /\
  forall i c k, nth_error (op_constraints op pb) i = Some c -> nth_error cnt i = Some k ->
    k <> 1%nat /\
    ((0 < k)%nat -> k = (unaff vars (c_elements c) + if in_dec Nat.eq_dec i pend then 1 else 0)%nat) /\
    (k = 0%nat -> settled op vars lf c).
Lemma uok_incl op vars lf lf' pend cnt : incl lf lf' -> uok op vars lf pend cnt -> uok op vars lf' pend cnt.
Proof.
  intros Hi [Hl H]. split; [ exact Hl |]. intros i c k Hc Hk. destruct (H i c k Hc Hk) as (H1 & H2 & H3).
  split; [ exact H1 |]. split; [ exact H2 |]. intros H0. eapply settled_incl; [ exact Hi | auto ].
Qed.
Lemma index_of_cst op i c : nth_error (op_constraints op pb) i = Some c -> forall e, In e (c_elements c) -> (f_var e < n)%nat.
Proof. intros H e He. apply (Hidx c e); [ | exact He ]. eapply op_constraints_in. eapply nth_error_In; exact H. Qed.

Lemma affect_csts_settles op vars idx : forall cnt lf cnt' lf', NoDup idx -> keys vars lf -> uok op vars lf idx cnt ->
  affect_csts op (op_constraints op pb) vars idx cnt lf = Ok (cnt', lf') ->
  keys vars lf' /\ uok op vars lf' [] cnt' /\ incl lf lf'.
Proof.
  induction idx as [ |i idx IH ]; intros cnt lf cnt' lf' Hndi Hk Hc H; cbn [affect_csts] in H.
  - inversion H; subst. split; [ exact Hk |]. split; [ exact Hc | apply incl_refl ].
  - inversion Hndi as [ |? ? Hnot Hndi' ]; subst. pose proof Hc as [Hlen Hc'].
    destruct (nth_error cnt i) as [k|] eqn:Ek; cbn [of_opt obind] in H; [ | discriminate ].
    destruct (nth_error (op_constraints op pb) i) as [c|] eqn:Ec.
    2:{ apply nth_error_None in Ec. assert (nth_error cnt i <> None) as X by congruence. apply nth_error_Some in X. lia. }
    destruct (Hc' i c k Ec Ek) as (Hk1 & Hk2 & Hk3). rewrite in_dec_cons_eq in Hk2.
    assert (Hoth : forall cn lf1 k', length cn = length cnt ->
              (forall j, j <> i -> nth_error cn j = nth_error cnt j) -> nth_error cn i = Some k' ->
              incl lf lf1 -> k' <> 1%nat -> ((0 < k')%nat -> k' = unaff vars (c_elements c)) ->
              (k' = 0%nat -> settled op vars lf1 c) -> uok op vars lf1 idx cn).
    { intros cn lf1 k' Hl' Hne Hi'' Hinc Ha Hb Hd. split; [ congruence |].
      intros j c' kj Hcj Hkj. destruct (Nat.eq_dec j i) as [Heq|Hji].
      - subst j. rewrite Ec in Hcj. inversion Hcj; subst c'. rewrite Hi'' in Hkj. inversion Hkj; subst kj.
        split; [ exact Ha |]. split; [ | exact Hd ]. intros Hpos. rewrite (in_dec_not i idx Hnot). rewrite (Hb Hpos) at 1. lia.
      - rewrite (Hne j Hji) in Hkj. destruct (Hc' j c' kj Hcj Hkj) as (G1 & G2 & G3). split; [ exact G1 |]. split.
        + intros Hpos. rewrite <- (in_dec_cons_ne j i idx Hji). apply G2. exact Hpos.
        + intros H0. eapply settled_incl; [ exact Hinc | auto ]. }
    assert (Hupd : forall w cz, list_upd cnt i w = Some cz ->
              length cz = length cnt /\ (forall j, j <> i -> nth_error cz j = nth_error cnt j) /\ nth_error cz i = Some w).
    { intros w cz E. split; [ eapply list_upd_length; exact E |]. split.
      - intros j Hj. rewrite (list_upd_nth _ _ _ _ j E). destruct (Nat.eqb_spec j i); [ contradiction | reflexivity ].
      - rewrite (list_upd_nth _ _ _ _ i E), Nat.eqb_refl. reflexivity. }
    destruct (Nat.eqb_spec k 0) as [->|Hk0].
    + apply (IH cnt lf); auto. apply (Hoth cnt lf 0%nat); auto; [ apply incl_refl | lia ].
    + specialize (Hk2 ltac:(lia)). destruct (Nat.eqb_spec (Nat.pred k) 1) as [Hp|Hp].
      * cbn [of_opt obind] in H. destruct (reduce_constraint op vars c) as [r| | ] eqn:Er; cbn [obind] in H; try discriminate.
        destruct (list_upd cnt i 0%nat) as [cnt0|] eqn:E0; cbn [of_opt obind] in H; [ | discriminate ]. destruct (Hupd _ _ E0) as (U1 & U2 & U3).
        destruct (reduce_constraint_settles op c vars lf n r Hk (index_of_cst op i c Ec) ltac:(lia) Er) as (K1 & K2 & K3).
        destruct (IH cnt0 _ cnt' lf' Hndi' K1) as (R1 & R2 & R3); [ | exact H | ].
        { apply (Hoth cnt0 _ 0%nat); auto; lia. }
        split; [ exact R1 |]. split; [ exact R2 |]. eapply incl_tran; eassumption.
      * destruct (list_upd cnt i (Nat.pred k)) as [cnt1|] eqn:E1; cbn [of_opt obind] in H; [ | discriminate ]. destruct (Hupd _ _ E1) as (U1 & U2 & U3).
        apply (IH cnt1 lf); auto. apply (Hoth cnt1 lf (Nat.pred k)); auto; [ apply incl_refl | lia | lia ].
Qed.

Variable ch : caches.
Hypothesis Hch : make_caches pb = Some ch.
Definition UInv (s : pstate) : Prop := keys (s_vars s) (s_lifo s) /\ forall op, uok op (s_vars s) (s_lifo s) [] (cnt_of op s).

Lemma uok_pop op vars lf v b cnt : ~ In v (vkeys vars) -> uok op vars ((v, b) :: lf) [] cnt ->
  uok op (vars ++ [(v, b)]) lf (positions v (op_constraints op pb) 0) cnt.
Proof.
  intros Hv [Hl H].
  (* the counters: the same statement as for [cok] *)
  split; [ exact Hl |]. intros i c k Hc Hk. destruct (H i c k Hc Hk) as (H1 & H2 & H3). split; [ exact H1 |]. split; [ | intros H0; apply settled_pop; auto ].
  intros Hpos. rewrite (H2 Hpos), (in_dec_not i [] (fun f => f)), (unaff_add vars v b (c_elements c)); [ | apply Hnd; eapply op_constraints_in; eapply nth_error_In; exact Hc | exact Hv ].
  assert (Heq : In i (positions v (op_constraints op pb) 0) <-> In v (map f_var (c_elements c))).
  { rewrite positions_in, Nat.sub_0_r. split; [ intros (_ & c' & Hc' & Hm); rewrite Hc in Hc'; inversion Hc'; subst; exact Hm |]. intros Hm. split; [ lia |]. exists c. auto. }
  destruct (in_dec Nat.eq_dec v (map f_var (c_elements c))) as [Hm|Hm], (in_dec Nat.eq_dec i (positions v (op_constraints op pb) 0)) as [Hp|Hp]; try lia; exfalso; tauto.
Qed.

Lemma affect_step_settles s v b lf s' : UInv s -> s_lifo s = (v, b) :: lf -> affect_step pb ch s v b lf = Ok s' -> UInv s'.
Proof.
  intros [Hk Hc] Hlf H. rewrite Hlf in *.
  assert (Hv : ~ In v (vkeys (s_vars s))) by (intros X; apply (proj2 (proj2 (proj2 Hk)) v X); left; reflexivity).
  assert (Hvn : (v < n)%nat) by (apply (proj1 Hk v); right; left; reflexivity).
  unfold affect_step in H. rewrite (vemplace_fresh _ _ _ Hv) in H.
  pose proof (keys_pop _ _ _ _ _ Hk) as K0.
  pose proof (uok_pop _ _ _ _ _ _ Hv (Hc op_equal)) as Ce. pose proof (uok_pop _ _ _ _ _ _ Hv (Hc op_greater)) as Cg. pose proof (uok_pop _ _ _ _ _ _ Hv (Hc op_less)) as Cl.
  pose proof (proj2 (cache_of_spec pb ch Hch op_equal) v Hvn) as Pe. pose proof (proj2 (cache_of_spec pb ch Hch op_greater) v Hvn) as Pg. pose proof (proj2 (cache_of_spec pb ch Hch op_less) v Hvn) as Pl.
  cbn [cache_of cnt_of op_constraints] in *. rewrite Pe, Pg, Pl in H. cbn [of_opt obind] in H.
  destruct (affect_csts op_equal _ _ _ _ _) as [[eq lf1]| | ] eqn:E1; cbn [obind] in H; try discriminate.
  destruct (affect_csts op_greater _ _ _ _ _) as [[gr lf2]| | ] eqn:E2; cbn [obind] in H; try discriminate.
  destruct (affect_csts op_less _ _ _ _ _) as [[le lf3]| | ] eqn:E3; cbn [obind] in H; try discriminate.
  inversion H; subst s'.
  destruct (affect_csts_settles op_equal _ _ _ _ _ _ (positions_nd pb Hnd op_equal v) K0 Ce E1) as (K1 & C1 & I1).
  destruct (affect_csts_settles op_greater _ _ _ _ _ _ (positions_nd pb Hnd op_greater v) K1 (uok_incl _ _ _ _ _ _ I1 Cg) E2) as (K2 & C2 & I2).
  destruct (affect_csts_settles op_less _ _ _ _ _ _ (positions_nd pb Hnd op_less v) K2 (uok_incl _ _ _ _ _ _ (incl_tran I1 I2) Cl) E3) as (K3 & C3 & I3).
  split; [ exact K3 |]. intros op. destruct op; cbn [cnt_of s_vars s_lifo s_equal s_greater s_less].
  - eapply uok_incl; [ | exact C1 ]. eapply incl_tran; eassumption.
  - eapply uok_incl; [ | exact C2 ]. exact I3.
  - exact C3.
Qed.
Lemma affects_settles fuel : forall s s', UInv s -> affects fuel pb ch s = Ok (Some s') -> UInv s' /\ s_lifo s' = [].
Proof.
  induction fuel as [ |fuel IH ]; intros s s' Hi H; cbn [affects] in H; [ discriminate |].
  destruct (s_lifo s) as [ |[v b] lf ] eqn:E; [ inversion H; subst; auto |].
  destruct (affect_step pb ch s v b lf) as [s1| | ] eqn:Es; cbn [obind] in H; try discriminate.
  apply (IH s1); [ | exact H ]. eapply affect_step_settles; eassumption.
Qed.

(** ** Initialisation *)
Lemma emplace_all_settles l b : forall lf, keys [] lf -> (forall e, In e l -> (f_var e < n)%nat) ->
  keys [] (emplace_all l b lf) /\ incl lf (emplace_all l b lf) /\ (forall e, In e l -> In (f_var e) (vkeys (emplace_all l b lf))).
Proof.
  unfold emplace_all. induction l as [ |e l IH ]; intros lf Hk Hl; cbn [fold_left]; [ split; [ exact Hk |]; split; [ apply incl_refl | intros e [] ] |].
  destruct (keys_emplace n [] lf (f_var e) b Hk (Hl e (or_introl eq_refl)) eq_refl) as (K & I & Inc).
  destruct (IH _ K (fun w Hw => Hl w (or_intror Hw))) as (K' & Inc' & I').
  split; [ exact K' |]. split; [ eapply incl_tran; eassumption |]. intros w [<-|Hw]; [ | auto ].
  apply vkeys_in in I. destruct I as [d I]. apply vkeys_in. eauto.
Qed.
Lemma affect_unit_settles op c lf k' lf' : (forall e, In e (c_elements c) -> (f_var e < n)%nat) -> keys [] lf ->
  affect_unit op [] c (length (c_elements c)) lf = Ok (k', lf') ->
  keys [] lf' /\ incl lf lf' /\ k' <> 1%nat /\ ((0 < k')%nat -> k' = unaff [] (c_elements c)) /\ (k' = 0%nat -> settled op [] lf' c).
Proof.
  intros Hlt Hk H. unfold affect_unit in H.
  destruct (Nat.eqb_spec (length (c_elements c)) 1) as [H1|H1].
  { destruct (reduce_constraint op [] c) as [r| | ] eqn:Er; cbn [obind] in H; try discriminate. inversion H; subst k' lf'.
    destruct (reduce_constraint_settles op c [] lf n r Hk Hlt ltac:(rewrite unaff_nil; lia) Er) as (K1 & K2 & K3).
    split; [ exact K1 |]. split; [ exact K2 |]. split; [ lia |]. split; [ lia | auto ]. }
  assert (Hkeep : Ok (length (c_elements c), lf) = Ok (k', lf') ->
    keys [] lf' /\ incl lf lf' /\ k' <> 1%nat /\ ((0 < k')%nat -> k' = unaff [] (c_elements c)) /\ (k' = 0%nat -> settled op [] lf' c)).
  { intros E. inversion E; subst k' lf'. split; [ exact Hk |]. split; [ apply incl_refl |]. split; [ exact H1 |]. split; [ rewrite unaff_nil; reflexivity |].
    intros H0. right. intros e He. destruct (c_elements c); [ destruct He | discriminate H0 ]. }
  assert (Hall : forall b, Ok (0%nat, emplace_all (c_elements c) b lf) = Ok (k', lf') ->
    keys [] lf' /\ incl lf lf' /\ k' <> 1%nat /\ ((0 < k')%nat -> k' = unaff [] (c_elements c)) /\ (k' = 0%nat -> settled op [] lf' c)).
  { intros b E. inversion E; subst k' lf'. destruct (emplace_all_settles (c_elements c) b lf Hk Hlt) as (K1 & K2 & K3).
    split; [ exact K1 |]. split; [ exact K2 |]. split; [ lia |]. split; [ lia |]. intros _. right. auto. }
  assert (Htriv : (forall x, csat op x c) -> Ok (0%nat, lf) = Ok (k', lf') ->
    keys [] lf' /\ incl lf lf' /\ k' <> 1%nat /\ ((0 < k')%nat -> k' = unaff [] (c_elements c)) /\ (k' = 0%nat -> settled op [] lf' c)).
  { intros Hs E. inversion E; subst k' lf'. split; [ exact Hk |]. split; [ apply incl_refl |]. split; [ lia |]. split; [ lia |]. intros _. left. auto. }
  destruct (is_all_factor_ge_than_zero c) eqn:Ep; [ | apply Hkeep; exact H ].
  pose proof (all_pos_spec c Ep) as Hpos.
  assert (Hb : forall x, 0 <= lhs x (c_elements c) <= sum_factor c) by (intros x; rewrite (sum_factor_lhs pb); apply (lhs_pos_bounds pb); exact Hpos).
  destruct op; cbn [csat] in *; unfold sat_equal, sat_greater, sat_less in *.
  - destruct ((sum_factor c =? c_value c) || (c_value c =? 0)); [ eapply Hall; exact H | apply Hkeep; exact H ].
  - destruct (sum_factor c =? c_value c); [ eapply Hall; exact H |]. destruct (Z.eqb_spec (c_value c) 0); [ | apply Hkeep; exact H ].
    apply Htriv; [ | exact H ]. intros x. specialize (Hb x). lia.
  - destruct (c_value c <=? 0); [ eapply Hall; exact H |]. destruct (Z.eqb_spec (sum_factor c) (c_value c)); [ | apply Hkeep; exact H ].
    apply Htriv; [ | exact H ]. intros x. specialize (Hb x). lia.
Qed.
Lemma affect_units_settles op csts : forall lf cnt lf', (forall c, In c csts -> forall e, In e (c_elements c) -> (f_var e < n)%nat) -> keys [] lf ->
  affect_units op [] csts (lengths csts) lf = Ok (cnt, lf') ->
  keys [] lf' /\ incl lf lf' /\ length cnt = length csts /\
  forall i c k, nth_error csts i = Some c -> nth_error cnt i = Some k ->
    k <> 1%nat /\ ((0 < k)%nat -> k = unaff [] (c_elements c)) /\ (k = 0%nat -> settled op [] lf' c).
Proof.
  induction csts as [ |c csts IH ]; intros lf cnt lf' Hlt Hk H; cbn [affect_units lengths map] in H.
  - inversion H; subst. split; [ exact Hk |]. split; [ apply incl_refl |]. split; [ reflexivity |]. intros [ |i ] c k X; discriminate.
  - destruct (affect_unit op [] c (length (c_elements c)) lf) as [[k1 lf1]| | ] eqn:E1; cbn [obind] in H; try discriminate.
    destruct (affect_units op [] csts _ lf1) as [[cnt1 lf2]| | ] eqn:E2; cbn [obind] in H; try discriminate. inversion H; subst cnt lf'.
    destruct (affect_unit_settles op c lf k1 lf1 (Hlt c (or_introl eq_refl)) Hk E1) as (K1 & I1 & A1 & A2 & A3).
    destruct (IH lf1 cnt1 lf2 (fun w Hw => Hlt w (or_intror Hw)) K1 E2) as (K2 & I2 & L2 & H2).
    split; [ exact K2 |]. split; [ eapply incl_tran; eassumption |]. split; [ cbn; congruence |]. intros [ |i ] c' k Hc Hkk; cbn in Hc, Hkk; [ | eauto ].
    inversion Hc; inversion Hkk; subst. split; [ exact A1 |]. split; [ exact A2 |]. intros H0. eapply settled_incl; [ exact I2 | auto ].
Qed.
Lemma units_uok op cnt lf : length cnt = length (op_constraints op pb) ->
  (forall i c k, nth_error (op_constraints op pb) i = Some c -> nth_error cnt i = Some k ->
      k <> 1%nat /\ ((0 < k)%nat -> k = unaff [] (c_elements c)) /\ (k = 0%nat -> settled op [] lf c)) -> uok op [] lf [] cnt.
Proof.
  intros Hl H. split; [ exact Hl |]. intros i c k Hc Hk. destruct (H i c k Hc Hk) as (H1 & H2 & H3). split; [ exact H1 |]. split; [ | exact H3 ].
  intros Hp. rewrite (in_dec_not i [] (fun f => f)), Nat.add_0_r. apply H2. exact Hp.
Qed.
Lemma op_index op c : In c (op_constraints op pb) -> forall e, In e (c_elements c) -> (f_var e < n)%nat.
Proof. intros Hc e He. apply (Hidx c e); [ | exact He ]. eapply op_constraints_in; exact Hc. Qed.
Lemma try_affect_settles lf s : keys [] lf ->
  try_affect_variable pb (mk_pstate [] lf (lengths (p_equal pb)) (lengths (p_greater pb)) (lengths (p_less pb))) = Ok s -> UInv s.
Proof.
  intros Hk H. unfold try_affect_variable in H. cbn [s_vars s_lifo s_equal s_greater s_less] in H.
  destruct (affect_units op_equal _ _ _ _) as [[e lf1]| | ] eqn:E1; cbn [obind] in H; try discriminate.
  destruct (affect_units op_greater _ _ _ _) as [[g lf2]| | ] eqn:E2; cbn [obind] in H; try discriminate.
  destruct (affect_units op_less _ _ _ _) as [[l lf3]| | ] eqn:E3; cbn [obind] in H; try discriminate. inversion H; subst s.
  destruct (affect_units_settles op_equal _ _ _ _ (op_index op_equal) Hk E1) as (K1 & I1 & L1 & H1).
  destruct (affect_units_settles op_greater _ _ _ _ (op_index op_greater) K1 E2) as (K2 & I2 & L2 & H2).
  destruct (affect_units_settles op_less _ _ _ _ (op_index op_less) K2 E3) as (K3 & I3 & L3 & H3).
  split; [ exact K3 |]. intros op; destruct op; cbn [cnt_of s_vars s_lifo s_equal s_greater s_less].
  - eapply uok_incl; [ | apply (units_uok op_equal e lf1); assumption ]. eapply incl_tran; eassumption.
  - eapply uok_incl; [ | apply (units_uok op_greater g lf2); assumption ]. exact I3.
  - apply units_uok; assumption.
Qed.
Lemma bounded_keys : keys [] (try_affect_bounded_variable pb []).
Proof.
  unfold try_affect_bounded_variable.
  assert (H : forall l lf, keys [] lf -> (forall i v, In (i, v) l -> (i < n)%nat) ->
     keys [] (fold_left (fun (lf : lifo) (iv : nat * variable_value) => let '(i, v) := iv in
               if v_min v =? v_max v then lifo_emplace lf i (negb (v_max v =? 0)) else lf) l lf)).
  { induction l as [ |[i v] l IH ]; intros lf Hk Hl; cbn [fold_left]; [ exact Hk |]. apply IH; [ | intros j w Hw; apply (Hl j w); right; exact Hw ].
    destruct (v_min v =? v_max v); [ | exact Hk ]. apply keys_emplace; [ exact Hk | apply (Hl i v); left; reflexivity | reflexivity ]. }
  apply H.
  - split; [ intros v [[]|[]] |]. split; [ constructor |]. split; [ constructor | intros v [] ].
  - intros i v Hin. apply in_combine_seq in Hin. apply nth_error_Some. congruence.
Qed.

(** ** The whole *)
Hypothesis Hlen : length (v_names (p_vars pb)) = n.
Lemma finish_settles aff s fuel q y x : length (a_names aff) = length (a_values aff) -> UInv s -> finish fuel pb aff ch s = Ok (Some q) ->
  completes y q x pb -> feasible y q ->
  forall op c, In c (op_constraints op pb) -> csat op x c \/
    forall e, In e (c_elements c) -> exists nm b, called pb (f_var e) nm /\ fixed_to q nm b.
Proof.
  intros Haff Hi H Hcomp Hy op c Hin. unfold finish in H.
  destruct (affects fuel pb ch s) as [[s1| ]| | ] eqn:E1; cbn [obind] in H; try discriminate.
  destruct (affects_settles _ _ _ Hi E1) as [I1 L1].
  destruct (make_lp_from_bqp_objective pb ch s1) as [mo|] eqn:Em; cbn [of_opt obind] in H; [ | discriminate ].
  unfold try_remove_unused_variable in H. pose proof (proj1 (cache_of_spec pb ch Hch op_equal)) as Hcl. cbn [cache_of] in Hcl. rewrite Hcl in H.
  destruct (remove_unused_spec pb ch Hch s1 (seq 0 n) (s_vars s1)) as (U & R1 & R2 & R3 & R4).
  { apply I1. }
  { intros i Hn. apply in_seq in Hn. unfold n in Hn. lia. }
  { intros o. apply (proj2 I1 o). }
  unfold n in R1. rewrite R1 in H. cbn [bind of_opt obind] in H. rewrite L1 in H.
  assert (Hs3 : exists fuel', affects fuel pb ch (mk_pstate (s_vars s1 ++ U) [] (s_equal s1) (s_greater s1) (s_less s1)) =
     match fuel' with O => Ok None | S _ => Ok (Some (mk_pstate (s_vars s1 ++ U) [] (s_equal s1) (s_greater s1) (s_less s1))) end) by (exists fuel; destruct fuel; reflexivity).
  destruct Hs3 as [fuel' Hs3]. rewrite Hs3 in H. clear Hs3. destruct fuel'; cbn [obind] in H; [ discriminate |].
  destruct (make_problem pb aff mo _) as [q'| | ] eqn:E3; cbn [obind] in H; try discriminate. inversion H; subst q'. clear H.
  pose proof (make_problem_rebuilt _ _ _ _ _ E3) as RB.
  pose proof (completes_compat pb aff mo _ q RB Haff Hlen y x Hcomp) as Hc. cbn [s_vars] in Hc.
  assert (Hkeys : forall v b, In (v, b) (s_vars s1 ++ U) -> (v < n)%nat).
  { intros v b Hv. apply in_app_or in Hv. destruct Hv as [Hv|Hv]; [ apply (proj1 (proj1 I1)); left; apply vkeys_in; eauto |].
    destruct (R2 v b Hv) as [Hs _]. apply in_seq in Hs. lia. }
  assert (Hag : agrees x (s_vars s1 ++ U)).
  { intros v b Hv. apply (proj1 Hc); [ apply (Hkeys v b Hv) | apply vfind_in; assumption ]. }
  apply In_nth_error in Hin. destruct Hin as [i Hi'].
  destruct (nth_error (cnt_of op s1) i) as [k|] eqn:Ek.
  2:{ apply nth_error_None in Ek. rewrite (proj1 (proj2 I1 op)) in Ek. assert (X : nth_error (op_constraints op pb) i <> None) by congruence. apply nth_error_Some in X. lia. }
  destruct (proj2 (proj2 I1 op) i c k Hi' Ek) as (K1 & K2 & K3). destruct k as [ |k ].
  - destruct (K3 eq_refl) as [G|G].
    + left. apply G. intros v b [Hv|Hv]; [ apply Hag; apply in_or_app; left; exact Hv | rewrite L1 in Hv; destruct Hv ].
    + right. intros e He. destruct (G e He) as [Hv|Hv]; [ | rewrite L1 in Hv; destruct Hv ].
      pose proof (index_of_cst op i c Hi' e He) as Hn. apply vkeys_in in Hv. destruct Hv as [b Hv].
      assert (Hf : vfind (s_vars s1 ++ U) (f_var e) = Some b) by (apply vfind_in; [ exact R3 | apply in_or_app; left; exact Hv ]).
      destruct (nth_error (v_names (p_vars pb)) (f_var e)) as [nm|] eqn:En; [ | apply nth_error_None in En; lia ].
      exists nm, b. split; [ exact En |]. pose proof (rb_called pb aff mo _ q RB Haff (f_var e) nm En Hn) as Q. cbn [s_vars] in Q. rewrite Hf in Q. exact Q.
  - left. pose proof (rb_csts _ _ _ _ _ RB op) as Hcc. cbn [s_vars] in Hcc.
    assert (Hcnt : cnt_of op (mk_pstate (s_vars s1 ++ U) [] (s_equal s1) (s_greater s1) (s_less s1)) = cnt_of op s1) by (destruct op; reflexivity). rewrite Hcnt in Hcc.
    destruct (constraints_copy_spec _ _ _ _ _ Hcc) as [G _]. destruct (G i c (S k) Hi' Ek ltac:(lia)) as (c' & Hin' & Hcop).
    apply (copied_csat _ _ op y x c c' Hc Hcop). apply (proj1 (feasible_ops y q) Hy op c' Hin').
Qed.
End Unsat.

Lemma preprocess_settles pb fuel q y x : well_formed pb -> preprocess fuel pb = Ok (Some q) -> completes y q x pb -> feasible y q ->
  forall op c, In c (op_constraints op pb) -> csat op x c \/
    forall e, In e (c_elements c) -> exists nm b, called pb (f_var e) nm /\ fixed_to q nm b.
Proof.
  intros (Hlen & _ & Hidx & Hnd & _) H Hc Hy. unfold preprocess in H.
  destruct (make_caches pb) as [ch|] eqn:Hch; cbn [of_opt obind] in H; [ | discriminate ]. cbn [init_state s_vars s_lifo s_equal s_greater s_less] in H.
  destruct (try_affect_variable pb _) as [s| | ] eqn:E; cbn [obind] in H; try discriminate.
  eapply (finish_settles pb Hidx Hnd ch Hch Hlen (mk_affected [] []) s fuel q y x eq_refl); try eassumption.
  eapply try_affect_settles; [ exact Hidx | apply bounded_keys | exact E ].
Qed.
