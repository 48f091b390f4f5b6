From Coq Require Import Permutation.
From Verif Require Import Base Problem_model Problem_spec Merged_model Merged_spec Classify_model Classify_spec Classify_proofs
  Matrix_model Matrix_spec Rows_model Rows_spec Rows_proofs Solver_spec Subsolver_model Subsolver_spec Subsolver_proofs
  BranchBound_model BranchBound_spec BranchBound_proofs ZRow_model ZRow_spec ZRow_proofs Greedy_spec Greedy_proofs ZBest_spec.
Open Scope Z_scope.

Section Proofs.
Context {F G : Type} (fo : fops F) (ro : rops G)
        (std_sort : forall A : Type, (A -> A -> bool) -> list A -> list A) (init_z : F).
Hypothesis Hperm : permutes std_sort.
Hypothesis Hsort : sorts std_sort.
Hypothesis Hw : weak_order (fl_lt fo).
Hypothesis Hshuf : shuffles ro.
Variables (cs : list merged) (n : nat) (c : nat -> list bool -> option F)
          (mode : objective_type) (after : list (rc F)) (x0 : list bool) (g0 : G) (zs : zsolver F) (s0 : state F G).
Hypothesis Hzmk : make_zsolver fo cs n c mode after x0 g0 = Ok (zs, s0).
Hypothesis Hrows : forall r, In r cs -> row_ok n r.
Hypothesis Hcost : cost_defined n c.
Notation sv := (zs_sv zs).
Let Hmk : make_solver fo S_inequalities_Z cs n c mode after x0 g0 = Ok (sv, s0) := ZRow_proofs.Hmk fo cs n c mode after x0 g0 zs s0 Hzmk.

Lemma zsum_column_value theta k r row P P' pi v : nth_error cs k = Some r -> mx_row (sv_ap sv) k = Some row ->
  length P = elements_number cs -> length pi = length cs -> decrease_preference fo theta row P = Some P' ->
  forall l, (forall p, In p l -> In p (occurrences cs v)) -> forall a,
  zsum_column fo sv P' pi (map (fun p => (fst (fst p), snd (fst p))) l) a =
  Some (fold_left (fun s p => fl_add fo s (fl_mul fo (fl_of_Z fo (Z.abs (f_factor (snd p))))
                                              (fl_add fo (multiplier fo pi p) (preference fo theta k P p)))) l a).
Proof.
  intros Hk Hrow HlP Hlpi Hdec. rewrite (row_exact fo _ cs n c mode after x0 g0 sv s0 Hmk Hrows k r Hk) in Hrow. inversion Hrow as [Erow]. clear Hrow.
  assert (Hnd : NoDup (map fst row)) by (rewrite <- Erow, row_slots; apply seq_NoDup).
  induction l as [|[[slot i] e] l IH]; intros Hl a; cbn [map zsum_column fold_left fst snd]; [reflexivity|].
  assert (Hin : In (slot, i, e) (places 0 0 cs)).
  { specialize (Hl _ (or_introl eq_refl)). unfold occurrences in Hl. apply filter_In in Hl. apply Hl. }
  apply places_in in Hin. destruct Hin as (k' & j & r' & e' & Hk' & Hj & E). cbn [Nat.add] in E. injection E as -> -> <-.
  assert (Hjl : (j < length (m_elements r'))%nat) by (apply nth_error_Some; congruence).
  pose proof (elements_before_S cs k' r' Hk') as Hle.
  destruct (nth_error pi k') as [q|] eqn:Eq.
  2: { apply nth_error_None in Eq. assert (k' < length cs)%nat by (apply nth_error_Some; congruence). lia. }
  cbn [bind].
  destruct (nth_error P (elements_before (map m_elements cs) k' + j)) as [p|] eqn:Ep; [|apply nth_error_None in Ep; lia].
  rewrite (decrease_values fo theta row P P' Hnd Hdec _ _ Ep). cbn [bind].
  assert (Eslot : in_slots row (elements_before (map m_elements cs) k' + j) = Nat.eqb k' k).
  { unfold in_slots. rewrite <- Erow, row_slots. apply Bool.eq_iff_eq_true. rewrite existsb_exists, Nat.eqb_eq. split.
    - intros (s & Hs & Es). apply Nat.eqb_eq in Es. subst s. apply in_seq in Hs. destruct (Nat.lt_trichotomy k' k) as [Hlt|[->|Hlt]]; [|reflexivity|].
      + pose proof (elements_before_lt cs k' k r' Hk' Hlt). lia.
      + pose proof (elements_before_lt cs k k' r Hk Hlt). lia.
    - intros ->. rewrite Hk in Hk'. inversion Hk'; subst r'. eexists. split; [|apply Nat.eqb_refl]. apply in_seq. lia. }
  rewrite Eslot.
  assert (Epi : multiplier fo pi (elements_before (map m_elements cs) k' + j, k', e)%nat = q) by (unfold multiplier; apply nth_error_nth; exact Eq).
  assert (Epr : preference fo theta k P (elements_before (map m_elements cs) k' + j, k', e)%nat = if Nat.eqb k' k then fl_mul fo p theta else p).
  { unfold preference. rewrite (nth_error_nth _ _ (fl_of_Z fo 0) Ep). reflexivity. }
  rewrite Epi, Epr.
  assert (Hfac : factor sv (elements_before (map m_elements cs) k' + j) = Some (f_factor e)).
  { destruct (row_matches fo S_inequalities_Z cs n c mode after x0 g0 sv s0 Hmk Hrows k' r' Hk') as (row' & Hrow' & Hrel).
    rewrite (row_exact fo _ cs n c mode after x0 g0 sv s0 Hmk Hrows k' r' Hk') in Hrow'. inversion Hrow' as [Er']. clear Hrow'. clear -Hrel Er' Hj. subst row'.
    revert Hrel Hj. generalize (elements_before (map m_elements cs) k') as slot. revert j. generalize (m_elements r') as els.
    induction els as [|d els IH]; intros j slot Hrel Hj; [destruct j; discriminate|]. cbn [row_places map] in Hrel. inversion Hrel as [|? ? ? ? Hh Ht]; subst.
    destruct j as [|j]; cbn in Hj.
    - inversion Hj; subst d. destruct Hh as [Hh _]. rewrite Nat.add_0_r. exact Hh.
    - rewrite <- Nat.add_succ_comm. apply IH; assumption. }
  assert (Hl' : forall q0, In q0 l -> In q0 (occurrences cs v)) by (intros; apply Hl; right; assumption).
  rewrite Hfac. cbn [bind]. rewrite IH by exact Hl'. reflexivity.
Qed.

Section Row.
Variables (theta : F) (k : nat) (r : merged) (row : list (nat * nat)) (s : state F G) (P' : list F).
Hypothesis Hk : nth_error cs k = Some r.
Hypothesis Hrow : mx_row (sv_ap sv) k = Some row.
Hypothesis Hs : sized cs n s.
Hypothesis Hdec : decrease_preference fo theta row (s_P s) = Some P'.

Lemma zreduced_costs_values l : forall els R rs R' rs', Forall2 (row_rel cs sv) l els -> (forall e, In e els -> (f_var e < n)%nat) ->
  zreduced_costs fo sv (s_x s) P' (s_pi s) l R rs = Some (R', rs') ->
  (forall j, (j < rs)%nat -> nth_error R' j = nth_error R j) /\
  (forall i e, nth_error els i = Some e -> exists el cost, nth_error R' (rs + i) = Some el /\ rc_id el = (rs + i)%nat /\
     rc_f el = f_factor e /\ c (f_var e) (s_x s) = Some cost /\
     rc_value el = z_reduced_cost fo cs theta k (s_P s) (s_pi s) (f_var e) cost).
Proof.
  induction l as [|[slot col] l IH]; intros els R rs R' rs' Hrel Hv H; inversion Hrel as [|? e ? els' Hh Ht]; subst; cbn [zreduced_costs] in H.
  - inversion H; subst. split; [reflexivity|]. intros [|i] e He; discriminate.
  - destruct Hh as (Hfac & Hcol & _). cbn [fst snd] in Hfac, Hcol. subst col.
    assert (Hve : (f_var e < n)%nat) by (apply Hv; left; reflexivity).
    unfold zreduced_cost in H. rewrite (column_exact fo _ cs n c mode after x0 g0 sv s0 Hmk Hrows _ Hve) in H. cbn [bind] in H.
    destruct Hs as (Hsx & HsP & Hspi & HsR).
    rewrite (zsum_column_value theta k r row (s_P s) P' (s_pi s) (f_var e) Hk Hrow HsP Hspi Hdec _ (fun p Hp => Hp)) in H. cbn [bind] in H.
    destruct (zfields fo cs n c mode after x0 g0 zs s0 Hzmk) as (_ & Ec & _). rewrite Ec in H.
    destruct (c (f_var e) (s_x s)) as [cost|] eqn:Ecost; [|discriminate]. cbn [bind] in H. rewrite Hfac in H. cbn [bind] in H.
    match type of H with context [list_upd R rs ?x] => set (el := x) in * end.
    destruct (list_upd R rs el) as [R1|] eqn:E1; [|discriminate]. cbn [bind] in H.
    destruct (IH els' R1 _ _ _ Ht (fun e' He' => Hv e' (or_intror He')) H) as [Hold Hnew]. split.
    + intros j Hj. rewrite Hold by lia. rewrite (list_upd_nth _ _ _ _ _ E1). destruct (Nat.eqb_spec j rs); [lia|reflexivity].
    + intros [|i] e' He'.
      * cbn in He'. inversion He'; subst e'. exists el, cost. rewrite Nat.add_0_r. split; [|split; [|split; [|split]]]; try reflexivity; [|assumption].
        rewrite Hold by lia. rewrite (list_upd_nth _ _ _ _ _ E1), Nat.eqb_refl. reflexivity.
      * cbn in He'. destruct (Hnew i e' He') as (d & cost' & Hd & Hid & Hrest). exists d, cost'. rewrite <- Nat.add_succ_comm. auto.
Qed.
End Row.

(** The exhaustive sub-solver answers for the tabled rows. *)
Lemma tabled_kind r lo hi : ctor_inequalities_Z r = Ok (lo, hi) -> tabled_row r -> z_kind r = k_exhaustive.
Proof.
  intros Hc (Hnu & Hlen & Hb). unfold z_kind.
  destruct (z_kind_facts r lo hi Hc) as (Hnz & _).
  assert (E : forallb (fun e => (-1 <=? f_factor e) && (f_factor e <=? 1)) (m_elements r) = false).
  { apply Bool.not_true_iff_false. intros H. apply Hnu. intros e He. rewrite forallb_forall in H. specialize (H e He).
    specialize (Hnz e He). apply andb_prop in H. destruct H as [H1 H2]. apply Z.leb_le in H1, H2. lia. }
  rewrite E, (proj2 (Nat.ltb_lt _ _)) by lia.
  destruct (Z.eqb_spec (m_min r) (m_max r)) as [|Hne]; [reflexivity|]. destruct Hb as [Hb|[(x & Hx) (y & Hy)]]; [contradiction|].
  pose proof (lhs_Z_range x (m_elements r)). pose proof (lhs_Z_range y (m_elements r)).
  destruct (Z.leb_spec (m_min r) (sum_neg (m_elements r))); [lia|]. destruct (Z.leb_spec (sum_pos (m_elements r)) (m_max r)); [lia|]. reflexivity.
Qed.

Lemma choice_sum (els : list felem) val (x : nat -> bool) : forall T i z,
  (forall j e, nth_error els j = Some e -> exists el, nth_error T j = Some el /\ rc_value el = val (i + j)%nat) -> length T = length els ->
  sum_costs fo (Subsolver_spec.chosen T (map (fun e => x (f_var e)) els)) z =
  fold_left (fun s p => if x (f_var (snd p)) then fl_add fo s (val (fst p)) else s) (combine (seq i (length els)) els) z.
Proof.
  induction els as [|e els IH]; intros [|el T] i z H Hl; cbn in Hl; try discriminate; [reflexivity|].
  cbn [map Subsolver_spec.chosen length seq combine fold_left fst snd].
  destruct (H 0%nat e eq_refl) as (el' & E & Hv). cbn in E. injection E as <-. rewrite Nat.add_0_r in Hv.
  assert (H' : forall j e', nth_error els j = Some e' -> exists el', nth_error T j = Some el' /\ rc_value el' = val (S i + j)%nat).
  { intros j e' He'. destruct (H (S j) e' He') as (q & Hq & Hqv). exists q. split; [exact Hq|]. rewrite Hqv. f_equal. lia. }
  destruct (x (f_var e)); [cbn [sum_costs]; rewrite Hv|]; apply IH; (assumption || lia).
Qed.
Lemma chosen_in {A} (T : list A) : forall u i e, nth_error T i = Some e -> nth_error u i = Some true -> In e (Subsolver_spec.chosen T u).
Proof.
  induction T as [|a T IH]; intros [|b u] [|i] e HT Hu; cbn in *; try discriminate.
  - inversion HT; inversion Hu; subst. left. reflexivity.
  - destruct b; [right|]; eapply IH; eassumption.
Qed.
Lemma row_value_lhs (x : nat -> bool) els : row_value els (map (fun e => x (f_var e)) els) = lhs x els.
Proof. induction els as [|e els IH]; cbn; [reflexivity|]. rewrite IH. destruct (x (f_var e)); reflexivity. Qed.

Lemma zupdate_best push kappa delta theta k r s s' b val : nth_error cs k = Some r -> tabled_row r -> buffer_one_more cs after r -> sized cs n s ->
  (forall i e, nth_error (m_elements r) i = Some e -> exists cost, c (f_var e) (s_x s) = Some cost /\
     val i = amplified fo push (z_reduced_cost fo cs theta k (s_P s) (s_pi s) (f_var e) cost) cost) ->
  zupdate_row fo ro std_sort init_z zs push kappa delta theta k s = Some (s', b) ->
  row_satisfied (s_x s') r /\
  forall y, m_min r <= lhs y (m_elements r) <= m_max r ->
    cheaper fo mode (sum_at_1 fo r val y) (sum_at_1 fo r val (as_assignment (s_x s'))) = false.
Proof.
  intros Hk Htab Hbuf Hs Hval Hup. pose proof Hs as (Hsx & HsP & Hspi & HsR).
  destruct (row_matches fo S_inequalities_Z cs n c mode after x0 g0 sv s0 Hmk Hrows k r Hk) as (row & Hrow & Hrel).
  destruct (bounds_at fo S_inequalities_Z cs n c mode after x0 g0 sv s0 Hmk k r Hk) as (lo & hi & Hb & Hc). cbn [ctor_row] in Hc.
  pose proof (tabled_kind r lo hi Hc Htab) as Hkind. destruct (z_kind_facts r lo hi Hc) as (Hnz & Hlh & Hsame & _).
  destruct (Hrows r (nth_error_In _ _ Hk)) as [Hnd Hvar]. pose proof (Rows_proofs.Forall2_length _ _ _ Hrel) as Hlen.
  assert (Hcap : (length row <= length (s_R s))%nat) by (rewrite HsR, Hlen; apply longest_row_in; eapply nth_error_In; eassumption).
  unfold zupdate_row in Hup. rewrite Hrow in Hup. cbn [bind] in Hup. unfold zprepare in Hup.
  destruct (decrease_preference fo theta row (s_P s)) as [P|] eqn:HP; [|discriminate]. cbn [bind] in Hup.
  assert (HlP : length P = elements_number cs).
  { assert (Hrowb : forall p, In p row -> (fst p < length (s_P s))%nat).
    { rewrite HsP. intros p Hp. clear -Hrel Hp. induction Hrel as [|q e row' els Hq HF IH]; [destruct Hp|].
      destruct Hp as [<-|Hp]; [apply Hq|apply IH; assumption]. }
    destruct (decrease_ok fo theta row (s_P s) Hrowb) as (P2 & HP2 & HlP2). rewrite HP in HP2. inversion HP2; subst P2. lia. }
  destruct (zreduced_costs_ok fo cs n c mode after x0 g0 zs s0 Hzmk Hrows Hcost (s_x s) P (s_pi s) Hsx HlP Hspi row _ Hrel Hvar (s_R s) 0%nat) as (new & Hnew & Hkey); [lia|].
  destruct (zreduced_costs_values theta k r row s P Hk Hrow Hs HP row _ _ _ _ _ Hrel Hvar Hnew) as [_ Hvals].
  rewrite Hnew in Hup. cbn [bind firstn app Nat.add] in Hup, Hvals. rewrite Hlen in Hup, Hkey, Hvals.
  assert (Hlnew : length new = length (m_elements r)).
  { apply (f_equal (@length _)) in Hkey. rewrite map_length, combine_length, seq_length, map_length, Nat.min_id in Hkey. assumption. }
  set (R1 := new ++ skipn (length (m_elements r)) (s_R s)) in *.
  assert (HlR1 : length R1 = longest_row cs) by (unfold R1; rewrite app_length, skipn_length; lia).
  destruct (match push with None => Some R1 | Some amp => push_costs fo sv (s_x s) row amp R1 (length (m_elements r)) 0 end) as [R2|] eqn:Epush; [|discriminate].
  cbn [bind] in Hup.
  assert (HR2 : forall i e, nth_error (m_elements r) i = Some e -> exists el, nth_error R2 i = Some el /\ rc_id el = i /\ rc_f el = f_factor e /\ rc_value el = val i).
  { intros i e He. destruct (Hvals i e He) as (el & cost & Hel & Hid & Hfe & Hco & Hbase).
    assert (Hi : (i < length (m_elements r))%nat) by (apply nth_error_Some; congruence).
    destruct (Hval i e He) as (cost' & Hco' & Ev). rewrite Hco in Hco'. injection Hco' as <-.
    destruct push as [amp|].
    - destruct (push_costs_values fo _ cs n c mode after x0 g0 sv s0 Hmk row s amp _ _ _ _ Epush) as [_ Hpv].
      destruct (Hpv i el) as (cost2 & Hpc & Hn'); [lia|assumption|].
      eexists. split; [exact Hn'|]. cbn [rc_id rc_f rc_value]. split; [assumption|]. split; [assumption|].
      rewrite Ev. unfold amplified. rewrite Hbase. f_equal. f_equal.
      unfold push_cost in Hpc. rewrite Hid in Hpc.
      assert (Hcol : exists slot, nth_error row i = Some (slot, f_var e)).
      { clear -Hrel He. revert i He. induction Hrel as [|[sl co] d row' els Hq HF IH]; intros [|i] He; try discriminate; cbn in He |- *.
        - inversion He; subst d. destruct Hq as (_ & Hq & _). cbn in Hq. subst co. eauto.
        - apply IH, He. }
      destruct Hcol as (slot & Es). rewrite Es in Hpc. cbn [bind] in Hpc. congruence.
    - injection Epush as <-. exists el. split; [assumption|]. split; [assumption|]. split; [assumption|]. rewrite Ev. exact Hbase. }
  assert (HlR2 : length R2 = longest_row cs).
  { destruct push as [amp|]; [|injection Epush as <-; exact HlR1]. rewrite <- HlR1. clear -Epush. revert Epush. generalize (length (m_elements r)) as m, 0%nat as i. revert R2. generalize R1.
    clear R1. intros R1 R2 m. revert R1. induction m as [|m IH]; intros R1 i H; cbn [push_costs] in H; [congruence|].
    destruct (nth_error R1 i) as [e|]; [|discriminate]. cbn [bind] in H.
    match type of H with (do cost <- ?d; _) = _ => destruct d as [cost|]; [|discriminate] end. cbn [bind] in H.
    destruct (list_upd R1 i _) as [R3|] eqn:E; [|discriminate]. cbn [bind] in H. rewrite (IH _ _ H). eapply list_upd_length. exact E. }
  assert (Hlong : (length (m_elements r) <= longest_row cs)%nat) by lia.
  set (len := length (m_elements r)) in *. set (T0 := firstn len R2) in *. set (rest := skipn len R2) in *.
  assert (HlT0 : length T0 = len) by (unfold T0; rewrite firstn_length; lia).
  assert (HT0 : forall i e, nth_error (m_elements r) i = Some e -> exists el, nth_error T0 i = Some el /\ rc_id el = i /\ rc_f el = f_factor e /\ rc_value el = val i).
  { intros i e He. destruct (HR2 i e He) as (el & Hel & Hx). exists el. split; [|exact Hx].
    assert (Hi : (i < len)%nat) by (apply nth_error_Some; congruence).
    rewrite <- (firstn_skipn len R2) in Hel. fold T0 in Hel. rewrite nth_error_app1 in Hel by lia. exact Hel. }
  assert (HkT0 : map rkey T0 = combine (seq 0 len) (map f_factor (m_elements r))).
  { apply nth_error_ext. intros i. rewrite nth_error_map. destruct (nth_error (m_elements r) i) as [e|] eqn:Ee.
    - destruct (HT0 i e Ee) as (el & -> & Hid & Hf & _). cbn [option_map]. unfold rkey. rewrite Hid, Hf. symmetry.
      clear -Ee. unfold len. rewrite <- (Nat.add_0_l i) at 2. revert Ee. generalize 0%nat as q. revert i. induction (m_elements r) as [|d l IH]; intros i q Ee; [destruct i; discriminate|].
      destruct i as [|i]; cbn in *; [inversion Ee; subst; f_equal; f_equal; lia|]. rewrite (IH i (S q) Ee). f_equal. f_equal. lia.
    - apply nth_error_None in Ee. assert (E1 : nth_error T0 i = None) by (apply nth_error_None; lia). rewrite E1. symmetry. apply nth_error_None.
      rewrite combine_length, seq_length, map_length. unfold len. lia. }
  destruct (zmk_fields fo cs n c mode after x0 g0 zs s0 Hzmk) as (_ & Ekinds & _). rewrite Ekinds, nth_error_map, Hk in Hup. cbn [option_map bind] in Hup.
  unfold bound_min, bound_max in Hup. rewrite Hb in Hup. cbn [option_map bind fst snd] in Hup.
  destruct (zfields fo cs n c mode after x0 g0 zs s0 Hzmk) as (_ & _ & Emode & _).
  rewrite Hkind in Hup. cbn [zchoose] in Hup. rewrite Emode in Hup. unfold zex in Hup. fold T0 rest in Hup.
  destruct (ex_solve_ok fo std_sort Hperm Hsort Hw mode (zs_ex zs) (mk_xrow k (m_elements r) lo hi) T0
     (tabled fo cs n c mode after x0 g0 zs s0 Hzmk k r lo hi Hk Hb ltac:(rewrite Hkind; reflexivity)) Hnz) as
     (T & sel & u & E1 & HPT & Hse & [HuL Huv] & HTu & HTn & _ & _ & Hbest).
  { destruct Htab as (_ & Hl2 & _). cbn. lia. } { exact HlT0. }
  cbn [x_k x_elements x_lo x_hi] in *. rewrite E1 in Hup. cbn [bind] in Hup.
  assert (Hkeyf : map rc_f T0 = map f_factor (m_elements r)).
  { apply (f_equal (map snd)) in HkT0. rewrite map_map in HkT0. cbn [rkey snd] in HkT0. change (map rc_f T0) with (map (fun x : rc F => rc_f x) T0). rewrite HkT0. clear. unfold len.
    generalize 0%nat as q. induction (m_elements r) as [|e l IH]; intros q; cbn; [reflexivity|]. f_equal. apply IH. }
  assert (Hrv : forall (R : list (rc F)) l u, map rc_f R = map f_factor l -> length u = length l -> sum_factors (Subsolver_spec.chosen R u) = row_value l u).
  { clear. induction R as [|a R IH]; intros [|e l] [|b u] H Hl; cbn in *; try discriminate; try reflexivity; try lia.
    injection H as He Hm. specialize (IH l u Hm ltac:(lia)). destruct b; cbn; lia. }
  destruct (zaffect_ok fo cs n c mode after x0 g0 zs s0 Hzmk Hrows Hcost k r row sel kappa delta
     (mk_state (s_x s) P (s_pi s) (T ++ rest) (s_g s)) T rest lo hi) as (s2 & b2 & Ha & Hsz & _ & Hsat & _ & Hone & Hzero); try assumption; try reflexivity.
  { unfold sized. cbn [s_x s_P s_pi s_R]. repeat split; try assumption. rewrite app_length, (Permutation_length HPT). unfold rest. rewrite skipn_length. lia. }
  { unfold len in HkT0. rewrite <- HkT0. apply Permutation_map. assumption. }
  { unfold len in HlT0. lia. }
  { unfold selected_value. rewrite (sum_factors_perm _ _ HTu), (Hrv T0 (m_elements r) u Hkeyf HuL). exact Huv. }
  fold len in Ha. rewrite Ha in Hup. injection Hup as <- <-. split; [exact Hsat|].
  assert (Hu : u = map (fun e => as_assignment (s_x s2) (f_var e)) (m_elements r)).
  { apply nth_error_ext. intros i. rewrite nth_error_map. destruct (nth_error (m_elements r) i) as [e|] eqn:Ee; cbn [option_map].
    - destruct (nth_error u i) as [ub|] eqn:Eu.
      2: { apply nth_error_None in Eu. assert (i < length (m_elements r))%nat by (apply nth_error_Some; congruence). lia. }
      f_equal. destruct (HT0 i e Ee) as (el & Hel & Hid & _).
      assert (Hcol : col_of row el = f_var e).
      { unfold col_of. rewrite Hid. clear -Hrel Ee. revert i Ee. induction Hrel as [|p d row' els Hq HF IH]; intros [|i] He; try discriminate; cbn in He |- *.
        - inversion He; subst d. apply Hq.
        - apply IH, He. }
      symmetry. unfold as_assignment. apply nth_error_nth. rewrite <- Hcol. destruct ub.
      + apply Hone. eapply Permutation_in; [symmetry; exact HTu|]. eapply chosen_in; eassumption.
      + apply Hzero. eapply Permutation_in; [symmetry; exact HTn|]. unfold not_chosen. eapply chosen_in; [eassumption|]. rewrite nth_error_map, Eu. reflexivity.
    - apply nth_error_None. apply nth_error_None in Ee. lia. }
  intros y Hy.
  assert (Hcs : forall x, sum_at_1 fo r val x = choice_cost fo T0 (map (fun e => x (f_var e)) (m_elements r))).
  { intros x. unfold sum_at_1, choice_cost. symmetry. apply choice_sum; [|exact HlT0].
    intros j e He. destruct (HT0 j e He) as (el & Hel & _ & _ & Hv). exists el. split; [exact Hel|exact Hv]. }
  rewrite !Hcs, <- Hu. destruct Htab as (_ & Hl2 & _). apply Hbest; [exact (proj1 Hl2)|].
  split; [apply map_length|]. rewrite row_value_lhs. apply Hsame; [apply lhs_Z_range|exact Hy].
Qed.
End Proofs.
