(** Proofs about what a row update does to the reduced costs of its own row. *)
From Coq Require Import Permutation Sorting QArith Lqa.
From Verif Require Import Base Problem_model Problem_spec Merged_model Merged_spec Classify_model Classify_proofs Matrix_model Matrix_spec
  Matrix_proofs Rows_model Rows_spec Rows_proofs Greedy_spec Greedy_proofs Update_proofs Delta_spec Settle_spec.
Open Scope Z_scope.

Section Assign.
Context {F : Type} (fo : fops F).
Definition slot_of (row : list (nat * nat)) (e : rc F) : nat := fst (nth (rc_id e) row (0, 0)%nat).
Definition moved (up : bool) (d : F) (e : rc F) (p : F) : F := if xorb (is_negative e) up then fl_add fo p d else fl_sub fo p d.
Lemma assign_list_P row up d T : forall x P x' P', assign_list fo row T up d x P = Some (x', P') ->
  NoDup (map (slot_of row) T) ->
  (forall e p, In e T -> nth_error P (slot_of row e) = Some p -> nth_error P' (slot_of row e) = Some (moved up d e p)) /\
  (forall s, ~ In s (map (slot_of row) T) -> nth_error P' s = nth_error P s).
Proof.
  induction T as [|e T IH]; intros x P x' P' H Hnd; cbn [assign_list] in H.
  - inversion H; subst. split; [intros e p []|reflexivity].
  - destruct (nth_error row (rc_id e)) as [[slot col]|] eqn:Er; cbn [bind] in H; [|discriminate].
    assert (Es : slot_of row e = slot) by (unfold slot_of; rewrite (nth_error_nth _ _ _ Er); reflexivity).
    destruct (list_upd x col _) as [x1|]; cbn [bind] in H; [|discriminate].
    unfold list_modify in H. destruct (nth_error P slot) as [q|] eqn:Eq; cbn [bind] in H; [|discriminate].
    destruct (list_upd P slot _) as [P1|] eqn:E1; cbn [bind] in H; [|discriminate].
    cbn [map] in Hnd. inversion Hnd as [|? ? Hni Hnd']; subst. destruct (IH _ _ _ _ H Hnd') as [Hin Hout]. split.
    + intros e' p [<-|He'] Hp.
      * rewrite Hout by assumption. rewrite (list_upd_nth _ _ _ _ _ E1), Nat.eqb_refl. rewrite Hp in Eq. inversion Eq; subst. reflexivity.
      * apply Hin; [assumption|]. rewrite (list_upd_nth _ _ _ _ _ E1).
        destruct (Nat.eqb_spec (slot_of row e') (slot_of row e)) as [E|]; [|assumption].
        exfalso. apply Hni. rewrite <- E. apply in_map, He'.
    + intros s Hs. cbn [map In] in Hs. rewrite Hout by tauto. rewrite (list_upd_nth _ _ _ _ _ E1).
      destruct (Nat.eqb_spec s (slot_of row e)) as [->|]; [tauto|reflexivity].
Qed.
End Assign.

Section Parts.
Context {F G : Type} (fo : fops F) (ro : rops G)
        (std_sort : forall A : Type, (A -> A -> bool) -> list A -> list A).
Hypothesis Hperm : permutes std_sort.
Hypothesis Hsorts : sorts std_sort.
Hypothesis Hshuf : shuffles ro.
Hypothesis Hfl : ordered_floats fo.
Variables (cl : solver_class) (cs : list merged) (n : nat) (c : nat -> list bool -> option F)
          (mode : objective_type) (after : list (rc F)) (x0 : list bool) (g0 : G) (sv : solver F) (s0 : state F G).
Hypothesis Hmk : make_solver fo cl cs n c mode after x0 g0 = Ok (sv, s0).
Hypothesis Hcl : shares_affect cl.
Hypothesis Hrows : forall r, In r cs -> row_ok n r.
Hypothesis Hcost : cost_defined n c.

(** The sorted terms [T] and the number [t] of chosen ones. *)
Record parts (theta : F) (k : nat) (r : merged) (s : state F G) (T : list (rc F)) (t : Z) : Prop := mk_parts {
  pa_key : Permutation (map rkey T) (combine (seq 0 (length (m_elements r))) (map f_factor (m_elements r)));
  pa_sorted : StronglySorted (in_order fo mode) T;
  pa_value : forall el, In el T -> exists e, nth_error (m_elements r) (rc_id el) = Some e /\ rc_f el = f_factor e /\
    base_value fo cs c theta k s e (rc_value el);
  pa_range : 0 <= t <= Z.of_nat (length (m_elements r));
  pa_bad : m_min r < t - negatives (m_elements r) -> forall e, In e (firstn (Z.to_nat t) T) -> better fo mode (fl_of_Z fo 0) (rc_value e) = false;
  pa_good : t - negatives (m_elements r) < m_max r -> forall e, In e (skipn (Z.to_nat t) T) -> better fo mode (rc_value e) (fl_of_Z fo 0) = false }.

Lemma update_parts kappa delta theta k r s s' b : nth_error cs k = Some r -> row_satisfiable r -> sized cs n s ->
  update_row fo ro std_sort sv None kappa delta theta k s = Some (s', b) ->
  exists row P T t rest g lo hi,
    mx_row (sv_ap sv) k = Some row /\ Forall2 (row_rel cs sv) row (m_elements r) /\
    decrease_preference fo theta row (s_P s) = Some P /\ length P = elements_number cs /\
    parts theta k r s T t /\ nth_error (sv_b sv) k = Some (lo, hi) /\ ctor_row cl r = Ok (lo, hi) /\
    lo <= t - negatives (m_elements r) <= hi /\ length (T ++ rest) = longest_row cs /\
    affect fo sv k row (t - 1) (length (m_elements r)) kappa delta (mk_state (s_x s) P (s_pi s) (T ++ rest) g) = Some (s', b).
Proof.
  intros Hk [x1 Hx1] Hs Hup. pose proof Hs as (Hsx & HsP & Hspi & HsR).
  destruct (row_matches fo cl cs n c mode after x0 g0 sv s0 Hmk Hrows k r Hk) as (row & Hrow & Hrel).
  destruct (bounds_at fo cl cs n c mode after x0 g0 sv s0 Hmk k r Hk) as (lo & hi & Hb & Hc).
  destruct (Hrows r (nth_error_In _ _ Hk)) as [Hnd Hvar]. pose proof (Rows_proofs.Forall2_length _ _ _ Hrel) as Hlen.
  assert (Hcap : (length row <= length (s_R s))%nat) by (rewrite HsR, Hlen; apply longest_row_in; eapply nth_error_In; eassumption).
  unfold update_row in Hup. rewrite Hrow in Hup. cbn [bind] in Hup.
  destruct (decrease_preference fo theta row (s_P s)) as [P|] eqn:HP; [|discriminate]. cbn [bind] in Hup.
  assert (HlP : length P = elements_number cs).
  { assert (Hrowb : forall p, In p row -> (fst p < length (s_P s))%nat).
    { rewrite HsP. intros p Hp. clear -Hrel Hp. induction Hrel as [|q e row' els Hq HF IH]; [destruct Hp|].
      destruct Hp as [<-|Hp]; [apply Hq|apply IH; assumption]. }
    destruct (decrease_ok fo theta row (s_P s) Hrowb) as (P2 & HP2 & HlP2). rewrite HP in HP2. inversion HP2; subst P2. lia. }
  destruct (reduced_costs_ok fo cl cs n c mode after x0 g0 sv s0 Hmk Hrows Hcost (s_x s) P (s_pi s) Hsx ltac:(lia) Hspi row _ Hrel Hvar (s_R s) 0%nat 0) as (new & Hnew & Hkey); [lia|].
  destruct (reduced_costs_values fo Hfl cl cs n c mode after x0 g0 sv s0 Hmk Hrows theta k r row s P Hk Hrow Hs HP row _ _ _ _ _ _ _ Hrel Hvar Hnew) as [_ Hvals].
  rewrite Hnew in Hup. cbn [bind firstn app Nat.add] in Hup, Hvals. rewrite Hlen in Hup, Hkey, Hvals.
  assert (Hlnew : length new = length (m_elements r)).
  { apply (f_equal (@length _)) in Hkey. rewrite map_length, combine_length, seq_length, map_length, Nat.min_id in Hkey. assumption. }
  set (R1 := new ++ skipn (length (m_elements r)) (s_R s)) in *.
  assert (HlR1 : length R1 = longest_row cs) by (unfold R1; rewrite app_length, skipn_length; lia).
  assert (Hf1 : firstn (length (m_elements r)) R1 = new).
  { unfold R1. rewrite firstn_app, Hlnew, Nat.sub_diag. cbn [firstn]. rewrite app_nil_r, <- Hlnew. apply firstn_all. }
  destruct (sv_fields fo cl cs n c mode after x0 g0 sv s0 Hmk) as (Esc & Esvc & Esm & Esa). rewrite Esm in Hup.
  destruct (calculator_sort_sorted fo ro std_sort Hperm Hsorts Hshuf Hfl mode R1 (length (m_elements r)) (s_g s)) as (T & HT & HpT & Hsorted).
  destruct (calculator_sort fo ro std_sort mode R1 (length (m_elements r)) (s_g s)) as [R3 g3]. cbn [fst] in HT. rewrite Hf1 in HpT.
  assert (HTkey : Permutation (map rkey T) (combine (seq 0 (length (m_elements r))) (map f_factor (m_elements r)))).
  { rewrite <- Hkey. apply Permutation_map, HpT. }
  assert (HlT : length T = length (m_elements r)) by (apply Permutation_length in HpT; lia).
  unfold bound_min, bound_max in Hup. rewrite Hb in Hup. cbn [option_map bind fst snd] in Hup.
  destruct (select_variables fo ro sv R3 (length (m_elements r)) (0 + negatives (m_elements r)) lo hi g3) as [[sel g4]|] eqn:Hsel; [|discriminate].
  cbn [bind] in Hup. rewrite HT in Hsel.
  destruct (select_inv fo ro Hfl cl cs n c mode after x0 g0 sv s0 Hmk Hcl T _ r lo hi k g3 g4 sel x1 Hk Hc (proj2 (bounds_same cl r lo hi x1 Hc) Hx1) HlT Hsorted Hsel) as (t & -> & Ht & Hlo & Hbad & Hgood).
  exists row, P, T, t, (skipn (length (m_elements r)) R1), g4, lo, hi. rewrite <- HT.
  do 4 (split; [assumption|]). split.
  - constructor; try assumption. intros el Hel.
    assert (Hin : In el new) by (eapply Permutation_in; eassumption). apply In_nth_error in Hin. destruct Hin as (i & Hi).
    assert (Hil : (i < length (m_elements r))%nat) by (rewrite <- Hlnew; apply nth_error_Some; congruence).
    destruct (nth_error (m_elements r) i) as [e|] eqn:Ee; [|apply nth_error_None in Ee; lia].
    destruct (Hvals i e Ee) as (el' & Hel' & Hid & Hfe & Hbase). unfold R1 in Hel'. rewrite nth_error_app1 in Hel' by lia.
    rewrite Hi in Hel'. inversion Hel'; subst el'. exists e. rewrite Hid. auto.
  - do 3 (split; [assumption|]). split; [rewrite HT, app_length, skipn_length; lia|exact Hup].
Qed.

Lemma row_nth k r row i e : nth_error cs k = Some r -> mx_row (sv_ap sv) k = Some row -> nth_error (m_elements r) i = Some e ->
  nth_error row i = Some (elements_before (map m_elements cs) k + i, f_var e)%nat.
Proof.
  intros Hk Hrow He. rewrite (row_exact fo cl cs n c mode after x0 g0 sv s0 Hmk Hrows k r Hk) in Hrow. injection Hrow as <-.
  rewrite nth_error_map. revert i He. generalize (elements_before (map m_elements cs) k) as slot. generalize (m_elements r) as l.
  induction l as [|d l IH]; intros slot [|i] He; try discriminate; cbn in He |- *.
  - inversion He; subst. rewrite Nat.add_0_r. reflexivity.
  - rewrite (IH (S slot) i He). rewrite Nat.add_succ_comm. reflexivity.
Qed.
Lemma slot_place k r row el e : nth_error cs k = Some r -> mx_row (sv_ap sv) k = Some row -> nth_error (m_elements r) (rc_id el) = Some e ->
  slot_of (F := F) row el = (elements_before (map m_elements cs) k + rc_id el)%nat /\ col_of row el = f_var e.
Proof.
  intros Hk Hrow He. pose proof (row_nth k r row _ e Hk Hrow He) as H. unfold slot_of, col_of. rewrite (nth_error_nth _ _ _ H). auto.
Qed.

Lemma affect_effect kappa delta theta k r row P T t rest g lo hi (s s' : state F G) b : nth_error cs k = Some r -> sized cs n s ->
  mx_row (sv_ap sv) k = Some row -> Forall2 (row_rel cs sv) row (m_elements r) -> length P = elements_number cs ->
  parts theta k r s T t -> nth_error (sv_b sv) k = Some (lo, hi) -> ctor_row cl r = Ok (lo, hi) ->
  lo <= t - negatives (m_elements r) <= hi -> length (T ++ rest) = longest_row cs ->
  affect fo sv k row (t - 1) (length (m_elements r)) kappa delta (mk_state (s_x s) P (s_pi s) (T ++ rest) g) = Some (s', b) ->
  let ratio := fl_div fo kappa (fl_sub fo (fl_of_Z fo 1) kappa) in
  lhs (as_assignment (s_x s')) (m_elements r) = t - negatives (m_elements r) /\ sized cs n s' /\
  (forall e, In e (firstn (Z.to_nat t) T) -> nth_error (s_x s') (col_of row e) = Some (negb (is_negative e))) /\
  (forall e, In e (skipn (Z.to_nat t) T) -> nth_error (s_x s') (col_of row e) = Some (is_negative e)) /\
  exists d,
  ((t = 0 /\ s_pi s' = s_pi s /\ exists r0, nth_error (T ++ rest) 0 = Some r0 /\
     d = fl_add fo delta (fl_mul fo ratio (fl_div fo (rc_value r0) (fl_of_Z fo 2)))) \/
   (0 < t /\ t = Z.of_nat (length (m_elements r)) /\ s_pi s' = s_pi s) \/
   (0 < t < Z.of_nat (length (m_elements r)) /\ exists rs rs1, nth_error T (Z.to_nat (t - 1)) = Some rs /\ nth_error T (Z.to_nat t) = Some rs1 /\
     d = fl_add fo delta (fl_mul fo ratio (fl_sub fo (rc_value rs1) (rc_value rs))) /\
     (forall j, nth_error (s_pi s') j = if Nat.eqb j k
        then option_map (fun p => fl_add fo p (fl_div fo (fl_add fo (rc_value rs) (rc_value rs1)) (fl_of_Z fo 2))) (nth_error (s_pi s) j)
        else nth_error (s_pi s) j))) /\
  (forall e p, In e (firstn (Z.to_nat t) T) -> nth_error P (slot_of row e) = Some p -> nth_error (s_P s') (slot_of row e) = Some (moved fo true d e p)) /\
  (forall e p, In e (skipn (Z.to_nat t) T) -> nth_error P (slot_of row e) = Some p -> nth_error (s_P s') (slot_of row e) = Some (moved fo false d e p)) /\
  (forall q, ~ In q (map (slot_of row) T) -> nth_error (s_P s') q = nth_error P q).
Proof.
  intros Hk (Hsx & HsP & Hspi & HsR) Hrow Hrel HlP Hpa Hb Hc Hlo Hlong Ha ratio. pose proof Hpa as [Hkey Hsorted Hval Hrange _ _].
  assert (HlT : length T = length (m_elements r)).
  { apply Permutation_length in Hkey. rewrite map_length, combine_length, seq_length, map_length, Nat.min_id in Hkey. assumption. }
  destruct (affect_ok fo cl cs n c mode after x0 g0 sv s0 Hmk Hcl Hrows k r row t kappa delta (mk_state (s_x s) P (s_pi s) (T ++ rest) g) T rest lo hi
     Hk Hrow Hrel Hb Hc) as (s2 & b2 & Ha2 & Hsz & _ & _ & _ & _ & Hlhs & Hup1 & Hup2); try assumption; [|reflexivity|].
  { unfold sized. cbn [s_x s_P s_pi s_R]. auto. }
  assert (E2 : s2 = s') by congruence. subst s2. clear Ha2. do 4 (split; [assumption|]). clear Hup1 Hup2 Hlhs Hsz.
  assert (Hndid : NoDup (map (slot_of row) T)).
  { assert (Eslots : map (slot_of row) T = map (fun i => elements_before (map m_elements cs) k + i)%nat (map (@rc_id F) T)).
    { rewrite map_map. apply map_ext_in. intros el Hel. destruct (Hval el Hel) as (e & He & _). apply (slot_place k r row el e Hk Hrow He). }
    rewrite Eslots. apply FinFun.Injective_map_NoDup; [intros i j Hij; lia|].
    assert (Hids : Permutation (map (@rc_id F) T) (seq 0 (length (m_elements r)))).
    { apply (Permutation_map fst) in Hkey. rewrite map_map in Hkey.
      assert (Ec : forall (A B : Type) (l : list A) (l' : list B), length l = length l' -> map fst (combine l l') = l).
      { clear. induction l as [|a l IH]; intros [|b l'] H; try discriminate; cbn; [reflexivity|]. rewrite IH by (cbn in H; lia). reflexivity. }
      rewrite Ec in Hkey by (rewrite seq_length, map_length; reflexivity). exact Hkey. }
    eapply Permutation_NoDup; [symmetry; exact Hids|]. apply seq_NoDup. }
  assert (Hfn : forall a b x Q up d, (a <= length T)%nat -> (a = b) -> assign_range fo row (T ++ rest) up d a 0 x Q = assign_list fo row (firstn b T) up d x Q).
  { intros a b' x Q up d Ha' <-. rewrite assign_range_list by (rewrite app_length; lia). f_equal. cbn [skipn].
    rewrite firstn_app. replace (a - length T)%nat with 0%nat by lia. cbn. rewrite app_nil_r. reflexivity. }
  assert (Hsn : forall a x Q up d, (a <= length T)%nat -> assign_range fo row (T ++ rest) up d (length (m_elements r) - a) a x Q = assign_list fo row (skipn a T) up d x Q).
  { intros a x Q up d Ha'. rewrite assign_range_list by (rewrite app_length; lia). f_equal. rewrite skipn_app.
    replace (a - length T)%nat with 0%nat by lia. cbn [skipn]. rewrite <- HlT, <- (skipn_length a T).
    rewrite firstn_app, Nat.sub_diag, firstn_all. cbn. rewrite app_nil_r. reflexivity. }
  unfold affect in Ha. cbn [s_x s_P s_pi s_R s_g] in Ha. fold ratio in Ha.
  destruct (nth_error (s_pi s) k) as [old|] eqn:Eold; cbn [bind] in Ha; [|discriminate].
  match type of Ha with bind ?e _ = _ => destruct e as [[[x1 P1] pi1]|] eqn:E end; cbn [bind] in Ha; [|discriminate].
  destruct (is_valid_constraint sv k x1) as [[|]|]; cbn [bind] in Ha; try discriminate.
  destruct (nth_error pi1 k); cbn [bind] in Ha; [|discriminate]. injection Ha as <- _. cbn [s_P s_pi].
  destruct (Z.ltb_spec (t - 1) 0) as [Ht0|Ht0]; [|destruct (Z.leb_spec (Z.of_nat (length (m_elements r))) (t - 1 + 1)) as [Htr|Htr]].
  - destruct (nth_error (T ++ rest) 0) as [r0|] eqn:E0; cbn [bind] in E; [|discriminate]. rewrite (Hfn _ (length T)) in E by lia. rewrite firstn_all in E.
    match type of E with context [assign_list fo row T false ?d0 _ _] => set (d := d0) in * end.
    destruct (assign_list fo row T false d (s_x s) P) as [[x2 P2]|] eqn:Eas; cbn [bind] in E; [|discriminate]. injection E as <- <- <-.
    destruct (assign_list_P fo row false d T _ _ _ _ Eas Hndid) as [Hin Hout]. exists d.
    replace (Z.to_nat t) with 0%nat by lia. cbn [firstn skipn]. split; [left; split; [lia|]; split; [reflexivity|]; eauto|].
    split; [intros e p []|]. split; assumption.
  - destruct (nth_Z (T ++ rest) (t - 1)) as [rs|] eqn:E0; cbn [bind] in E; [|discriminate]. rewrite (Hfn _ (length T)) in E by lia. rewrite firstn_all in E.
    match type of E with context [assign_list fo row T true ?d0 _ _] => set (d := d0) in * end.
    destruct (assign_list fo row T true d (s_x s) P) as [[x2 P2]|] eqn:Eas; cbn [bind] in E; [|discriminate]. injection E as <- <- <-.
    destruct (assign_list_P fo row true d T _ _ _ _ Eas Hndid) as [Hin Hout]. exists d.
    rewrite firstn_all2, skipn_all2 by lia. split; [right; left; split; [lia|]; split; [lia|reflexivity]|].
    split; [assumption|]. split; [intros e p []|assumption].
  - unfold nth_Z in E. destruct (Z.ltb_spec (t - 1) 0); [lia|]. destruct (Z.ltb_spec (t - 1 + 1) 0); [lia|].
    replace (t - 1 + 1) with t in E by lia. rewrite !nth_error_app1 in E by lia.
    destruct (nth_error T (Z.to_nat (t - 1))) as [rs|] eqn:E0; cbn [bind] in E; [|discriminate].
    destruct (nth_error T (Z.to_nat t)) as [rs1|] eqn:E1; cbn [bind] in E; [|discriminate].
    unfold list_modify in E at 1. rewrite Eold in E. cbn [bind] in E.
    destruct (list_upd (s_pi s) k _) as [pi2|] eqn:Epi; cbn [bind] in E; [|discriminate].
    rewrite (Hfn _ (Z.to_nat t)) in E by lia.
    match type of E with context [assign_list fo row _ true ?d0 _ _] => set (d := d0) in * end.
    destruct (assign_list fo row (firstn (Z.to_nat t) T) true d (s_x s) P) as [[x2 P2]|] eqn:Eas; cbn [bind] in E; [|discriminate].
    rewrite Hsn in E by lia.
    destruct (assign_list fo row (skipn (Z.to_nat t) T) false d x2 P2) as [[x3 P3]|] eqn:Eas2; cbn [bind] in E; [|discriminate]. injection E as <- <- <-.
    assert (HndA : NoDup (map (slot_of row) (firstn (Z.to_nat t) T)) /\ NoDup (map (slot_of row) (skipn (Z.to_nat t) T)) /\
       forall v, In v (map (slot_of row) (firstn (Z.to_nat t) T)) -> ~ In v (map (slot_of row) (skipn (Z.to_nat t) T))).
    { rewrite <- (firstn_skipn (Z.to_nat t) T), map_app in Hndid. clear -Hndid. revert Hndid.
      generalize (map (slot_of row) (firstn (Z.to_nat t) T)) (map (slot_of row) (skipn (Z.to_nat t) T)). intros a b' H.
      induction a as [|q a IH]; cbn in *; [split; [constructor|]; split; [assumption|]; intros v []|].
      inversion H as [|? ? Hni Hnd]; subst. destruct (IH Hnd) as (H1 & H2 & H3). split.
      - constructor; [|assumption]. intros Hin. apply Hni. apply in_or_app. auto.
      - split; [assumption|]. intros v [<-|Hv]; [|apply H3; assumption]. intros Hin. apply Hni. apply in_or_app. auto. }
    destruct HndA as (Hnd1 & Hnd2 & Hdisj).
    destruct (assign_list_P fo row true d _ _ _ _ _ Eas Hnd1) as [Hin1 Hout1].
    destruct (assign_list_P fo row false d _ _ _ _ _ Eas2 Hnd2) as [Hin2 Hout2]. exists d. split; [right; right; split; [lia|]|].
    { exists rs, rs1. split; [reflexivity|]. split; [reflexivity|]. split; [reflexivity|]. intros j. rewrite (list_upd_nth _ _ _ _ _ Epi).
      destruct (Nat.eqb_spec j k) as [->|]; [rewrite Eold|]; reflexivity. }
    split; [|split].
    + intros e p He Hp. rewrite Hout2 by (apply Hdisj, in_map, He). apply Hin1; assumption.
    + intros e p He Hp. apply Hin2; [assumption|]. rewrite Hout1; [assumption|]. intros Hin. apply (Hdisj _ Hin), in_map, He.
    + intros q Hq. rewrite <- (firstn_skipn (Z.to_nat t) T), map_app in Hq.
      rewrite Hout2 by (intros Hin; apply Hq; apply in_or_app; auto). apply Hout1. intros Hin; apply Hq; apply in_or_app; auto.
Qed.
End Parts.

(** ** Exact arithmetic *)
Lemma q_ordered : ordered_floats q_fops.
Proof.
  assert (L : forall a b, q_lt a b = true <-> (a < b)%Q).
  { intros a b. unfold q_lt. rewrite Bool.negb_true_iff. split; intros H.
    - apply Qnot_le_lt. intros K. apply Qle_bool_iff in K. congruence.
    - apply Bool.not_true_iff_false. rewrite Qle_bool_iff. lra. }
  assert (L' : forall a b, q_lt a b = false <-> (b <= a)%Q).
  { intros a b. rewrite <- Bool.not_true_iff_false, L. split; intros H; lra. }
  constructor; cbn [q_fops fl_lt fl_eqb fl_mul fl_of_Z]; intros *; rewrite ?L, ?L'; try (intros; lra).
  - intros H. apply Qeq_bool_iff in H. split; lra.
  - destruct q as [p d]. unfold Qmult, inject_Z. cbn [Qnum Qden]. rewrite Z.mul_1_l, Pos.mul_1_l. reflexivity.
Qed.
Lemma q_better_false mode a b : better q_fops mode a b = false <-> match mode with minimize => (b <= a)%Q | maximize => (a <= b)%Q end.
Proof.
  destruct mode; cbn [better q_fops fl_lt]; unfold q_lt; rewrite Bool.negb_false_iff, Qle_bool_iff; tauto.
Qed.

Definition qterm (f : nat * nat * felem -> Q) (p : nat * nat * felem) : Q := (inject_Z (f_factor (snd p)) * f p)%Q.
Lemma sum_over_right f l : (sum_over q_fops f l == fold_right (fun p s => qterm f p + s) 0 l)%Q.
Proof.
  unfold sum_over. cbn [q_fops fl_add fl_mul fl_of_Z].
  assert (H : forall l a, (fold_left (fun s p => s + inject_Z (f_factor (snd p)) * f p) l a == a + fold_right (fun p s => qterm f p + s) 0 l)%Q).
  { clear. induction l as [|p l IH]; intros a; cbn [fold_left fold_right]; [ring|]. rewrite IH. unfold qterm. ring. }
  rewrite H. cbn. ring.
Qed.
Lemma sum_over_change f f' p0 l : NoDup l -> In p0 l -> (forall p, In p l -> p <> p0 -> (f' p == f p)%Q) ->
  (sum_over q_fops f' l == sum_over q_fops f l + inject_Z (f_factor (snd p0)) * (f' p0 - f p0))%Q.
Proof.
  intros Hnd Hin Hsame. rewrite !sum_over_right.
  assert (Hout : forall l, (forall p, In p l -> (f' p == f p)%Q) ->
    (fold_right (fun p s => qterm f' p + s) 0 l == fold_right (fun p s => qterm f p + s) 0 l)%Q).
  { clear. induction l as [|p l IH]; intros H; cbn [fold_right]; [reflexivity|]. rewrite IH by (intros; apply H; right; assumption).
    unfold qterm. rewrite (H p (or_introl eq_refl)). reflexivity. }
  revert Hnd Hin Hsame. induction l as [|p l IH]; intros Hnd Hin Hsame; [destruct Hin|]. inversion Hnd as [|? ? Hni Hnd']; subst. cbn [fold_right].
  destruct Hin as [->|Hin].
  - rewrite (Hout l); [unfold qterm; ring|]. intros q Hq. apply Hsame; [right; assumption|]. intros ->. contradiction.
  - rewrite IH; [|assumption|assumption|intros; apply Hsame; [right|]; assumption]. unfold qterm.
    rewrite (Hsame p); [ring|left; reflexivity|]. intros ->. contradiction.
Qed.
Lemma sum_over_same f f' l : (forall p, In p l -> (f' p == f p)%Q) -> (sum_over q_fops f' l == sum_over q_fops f l)%Q.
Proof.
  rewrite !sum_over_right. induction l as [|p l IH]; intros H; cbn [fold_right]; [reflexivity|]. rewrite IH by (intros; apply H; right; assumption).
  unfold qterm. rewrite (H p (or_introl eq_refl)). reflexivity.
Qed.
Lemma places_slots cs : forall row slot, map (fun p => fst (fst p)) (places row slot cs) = seq slot (elements_number cs).
Proof.
  induction cs as [|m cs IH]; intros row slot; [reflexivity|]. cbn [places]. rewrite map_app, IH.
  assert (H : forall l slot, map (fun p => fst (fst p)) (row_places row slot l) = seq slot (length l)).
  { clear. induction l as [|e l IH]; intros slot; cbn; [reflexivity|]. rewrite IH. reflexivity. }
  rewrite H. unfold elements_number. cbn [map list_sum fold_right]. rewrite seq_app. reflexivity.
Qed.
Lemma occurrences_NoDup cs v : NoDup (occurrences cs v).
Proof. unfold occurrences. apply NoDup_filter. eapply NoDup_map_inv. rewrite places_slots. apply seq_NoDup. Qed.

Section Exact.
Context {G : Type} (ro : rops G) (std_sort : forall A : Type, (A -> A -> bool) -> list A -> list A).
Hypothesis Hperm : permutes std_sort.
Hypothesis Hsorts : sorts std_sort.
Hypothesis Hshuf : shuffles ro.
Variables (cl : solver_class) (cs : list merged) (n : nat) (c : nat -> list bool -> option Q)
          (mode : objective_type) (after : list (rc Q)) (x0 : list bool) (g0 : G) (sv : solver Q) (s0 : state Q G).
Hypothesis Hmk : make_solver q_fops cl cs n c mode after x0 g0 = Ok (sv, s0).
Hypothesis Hcl : shares_affect cl.
Hypothesis Hrows : forall r, In r cs -> row_ok n r.
Hypothesis Hcost : cost_defined n c.
Hypothesis Hlin : linear_cost c.

(** The reduced cost after the update, from the reduced cost used by the update. *)
Lemma cost_change theta k r row P (s s' : state Q G) i e cost p p' dpi :
  nth_error cs k = Some r -> nth_error (m_elements r) i = Some e -> sized cs n s -> sized cs n s' ->
  mx_row (sv_ap sv) k = Some row -> decrease_preference q_fops theta row (s_P s) = Some P ->
  nth_error P (elements_before (map m_elements cs) k + i) = Some p ->
  nth_error (s_P s') (elements_before (map m_elements cs) k + i) = Some p' ->
  (forall q, ~ (elements_before (map m_elements cs) k <= q < elements_before (map m_elements cs) k + length (m_elements r))%nat ->
     nth_error (s_P s') q = nth_error P q) ->
  (forall j, j <> k -> nth_error (s_pi s') j = nth_error (s_pi s) j) ->
  (nth k (s_pi s') 0 == nth k (s_pi s) 0 + dpi)%Q ->
  (current_cost cs (s_P s') (s_pi s') (f_var e) cost ==
   reduced_cost q_fops cs theta k (s_P s) (s_pi s) (f_var e) cost - inject_Z (f_factor e) * (dpi + (p' - p)))%Q.
Proof.
  intros Hk He (Hsx & HsP & Hspi & HsR) (Hsx' & HsP' & Hspi' & HsR') Hrow Hdec Hp Hp' Hsame Hpi Hdpi.
  set (eb := elements_before (map m_elements cs) k) in *.
  destruct (Hrows r (nth_error_In _ _ Hk)) as [Hnd Hvar].
  assert (Hil : (i < length (m_elements r))%nat) by (apply nth_error_Some; congruence).
  assert (Erow : row = map (fun p => (fst (fst p), f_var (snd p))) (row_places k eb (m_elements r))).
  { pose proof (row_exact q_fops cl cs n c mode after x0 g0 sv s0 Hmk Hrows k r Hk) as H. unfold eb. congruence. }
  assert (Hnds : NoDup (map fst row)) by (rewrite Erow, row_slots; apply seq_NoDup).
  assert (Hslots : forall q, in_slots row q = true <-> (eb <= q < eb + length (m_elements r))%nat).
  { intros q. unfold in_slots. rewrite Erow, row_slots, existsb_exists. split.
    - intros (q' & Hq' & E). apply Nat.eqb_eq in E. subst q'. apply in_seq in Hq'. exact Hq'.
    - intros H. exists q. split; [apply in_seq; exact H|apply Nat.eqb_refl]. }
  set (p0 := (eb + i, k, e)%nat).
  assert (Hp0 : In p0 (occurrences cs (f_var e))).
  { unfold occurrences. apply filter_In. split; [|apply Nat.eqb_refl]. apply places_in. exists k, i, r, e. auto. }
  (* another occurrence is in another row *)
  assert (Hother : forall q, In q (occurrences cs (f_var e)) -> q <> p0 ->
    snd (fst q) <> k /\ ~ (eb <= fst (fst q) < eb + length (m_elements r))%nat).
  { intros q Hq Hne. unfold occurrences in Hq. apply filter_In in Hq. destruct Hq as [Hq Hv]. apply Nat.eqb_eq in Hv.
    apply places_in in Hq. destruct Hq as (k' & j & r' & e' & Hk' & Hj & ->). cbn [fst snd Nat.add] in *.
    assert (Hjl : (j < length (m_elements r'))%nat) by (apply nth_error_Some; congruence).
    destruct (Nat.lt_trichotomy k' k) as [Hlt|[->|Hlt]].
    - split; [lia|]. pose proof (elements_before_lt cs k' k r' Hk' Hlt). unfold eb. lia.
    - exfalso. apply Hne. rewrite Hk in Hk'. injection Hk' as <-. unfold p0.
      assert (Eij : j = i).
      { eapply (proj1 (NoDup_nth_error (map f_var (m_elements r))) Hnd); [rewrite map_length; exact Hjl|].
        rewrite !nth_error_map, Hj, He. cbn. congruence. }
      subst j. rewrite He in Hj. injection Hj as <-. reflexivity.
    - split; [lia|]. pose proof (elements_before_lt cs k k' r Hk Hlt). unfold eb. lia. }
  assert (HsPin : forall q, In q (occurrences cs (f_var e)) -> exists w, nth_error (s_P s) (fst (fst q)) = Some w).
  { intros q Hq. unfold occurrences in Hq. apply filter_In in Hq. destruct Hq as [Hq _].
    assert (Hin : In (fst (fst q)) (map (fun p => fst (fst p)) (places 0 0 cs))) by (apply (in_map (fun p => fst (fst p))); exact Hq).
    rewrite places_slots in Hin. apply in_seq in Hin. destruct (nth_error (s_P s) (fst (fst q))) as [w|] eqn:E; [eauto|]. apply nth_error_None in E. lia. }
  unfold current_cost, reduced_cost. cbn [q_fops fl_sub].
  rewrite (sum_over_change (multiplier q_fops (s_pi s)) (multiplier q_fops (s_pi s')) p0 _ (occurrences_NoDup _ _) Hp0).
  2: { intros q Hq Hne. destruct (Hother q Hq Hne) as [Hr _]. destruct q as [[sl j] eq]. cbn [fst snd] in Hr. unfold multiplier.
       pose proof (Hpi j Hr) as E. cbn [q_fops fl_of_Z].
       destruct (nth_error (s_pi s) j) as [w|] eqn:Ew.
       - rewrite (nth_error_nth _ _ _ E), (nth_error_nth _ _ _ Ew). reflexivity.
       - apply nth_error_None in E, Ew. rewrite !nth_overflow by assumption. reflexivity. }
  rewrite (sum_over_change (preference q_fops theta k (s_P s)) (fun p => let '(slot, _, _) := p in nth slot (s_P s') 0%Q) p0 _ (occurrences_NoDup _ _) Hp0).
  2: { intros q Hq Hne. destruct (Hother q Hq Hne) as [Hr Hsl]. destruct (HsPin q Hq) as (w & Hw). destruct q as [[sl j] eq]. cbn [fst snd] in *.
       unfold preference. destruct (Nat.eqb_spec j k); [contradiction|]. pose proof (Hsame sl Hsl) as E.
       rewrite (decrease_values q_fops theta row (s_P s) P Hnds Hdec sl w Hw) in E.
       assert (Ei : in_slots row sl = false) by (apply Bool.not_true_iff_false; rewrite Hslots; exact Hsl). rewrite Ei in E.
       cbn [q_fops fl_of_Z]. rewrite (nth_error_nth _ _ _ E), (nth_error_nth _ _ _ Hw). reflexivity. }
  destruct (HsPin p0 Hp0) as (w & Hw). cbn [p0 fst] in Hw.
  pose proof (decrease_values q_fops theta row (s_P s) P Hnds Hdec _ w Hw) as Ed.
  rewrite (proj2 (Hslots (eb + i)%nat)) in Ed by lia. rewrite Hp in Ed. injection Ed as Ed.
  unfold p0. cbn [multiplier preference snd]. rewrite Nat.eqb_refl. cbn [q_fops fl_of_Z fl_mul] in *.
  rewrite (nth_error_nth _ _ _ Hp'), (nth_error_nth _ _ _ Hw), Hdpi, Ed. change (inject_Z 0) with 0%Q. ring.
Qed.

Lemma settled kappa delta theta k r (s s' : state Q G) b e v :
  (0 <= kappa < 1)%Q ->
  nth_error cs k = Some r -> row_satisfiable r -> sized cs n s -> (forall e, In e (m_elements r) -> f_factor e = 1) ->
  update_row q_fops ro std_sort sv None kappa delta theta k s = Some (s', b) ->
  (exists d, In d (m_elements r) /\ nth_error (s_x s') (f_var d) = Some false) ->
  (exists d, In d (m_elements r) /\ nth_error (s_x s') (f_var d) = Some true) \/ 0 < m_max r ->
  In e (m_elements r) -> nth_error (s_x s') (f_var e) = Some v ->
  exists cost, c (f_var e) (s_x s') = Some cost /\
    let q := current_cost cs (s_P s') (s_pi s') (f_var e) cost in
    match mode, v with
    | minimize, true => (q <= - delta)%Q | minimize, false => (delta <= q)%Q
    | maximize, true => (- delta <= q)%Q | maximize, false => (q <= delta)%Q
    end.
Proof.
  intros Hkap Hk Hsat Hs Hone Hup (dz & Hdz & Hxz) Hsome He Hv.
  destruct (update_parts q_fops ro std_sort Hperm Hsorts Hshuf q_ordered cl cs n c mode after x0 g0 sv s0 Hmk Hcl Hrows Hcost kappa delta theta k r s s' b Hk Hsat Hs Hup)
    as (row & P & T & t & rest & g & lo & hi & Hrow & Hrel & Hdec & HlP & Hpa & Hb & Hc & Hlo & Hlong & Ha).
  destruct (affect_effect q_fops cl cs n c mode after x0 g0 sv s0 Hmk Hcl Hrows kappa delta theta k r row P T t rest g lo hi s s' b Hk Hs Hrow Hrel HlP Hpa Hb Hc Hlo Hlong Ha)
    as (Hlhs & Hsz & Hx1 & Hx2 & d & Hcase & HP1 & HP2 & HP3).
  pose proof Hpa as [Hkey Hsorted Hval Hrange Hbad Hgood].
  set (eb := elements_before (map m_elements cs) k).
  assert (Hneg0 : negatives (m_elements r) = 0).
  { clear -Hone. unfold negatives. revert Hone. generalize (m_elements r) as l. induction l as [|a l IH]; intros H; [reflexivity|]. cbn [filter].
    rewrite (H a (or_introl eq_refl)). cbn [Z.ltb Z.compare]. apply IH. intros; apply H; right; assumption. }
  assert (HlT : length T = length (m_elements r)).
  { pose proof (Permutation_length Hkey) as H. rewrite map_length, combine_length, seq_length, map_length, Nat.min_id in H. assumption. }
  assert (Hnegel : forall el, In el T -> is_negative el = false).
  { intros el Hel. destruct (Hval el Hel) as (a & Ha' & Hf & _). unfold is_negative. rewrite Hf, (Hone a (nth_error_In _ _ Ha')). reflexivity. }
  assert (Hsplit : forall el, In el T <-> In el (firstn (Z.to_nat t) T) \/ In el (skipn (Z.to_nat t) T)).
  { intros el. rewrite <- in_app_iff, firstn_skipn. reflexivity. }
  (* the term of an element *)
  assert (Hterm : forall a, In a (m_elements r) -> exists i el, nth_error (m_elements r) i = Some a /\ In el T /\ rc_id el = i).
  { intros a Hain. apply In_nth_error in Hain. destruct Hain as (i & Hi).
    assert (Hin : In (i, f_factor a) (combine (seq 0 (length (m_elements r))) (map f_factor (m_elements r)))).
    { assert (Hgen : forall l q j, nth_error l j = Some a -> nth_error (combine (seq q (length l)) (map f_factor l)) j = Some ((q + j)%nat, f_factor a)).
      { clear. induction l as [|d l IH]; intros q [|j] H; try discriminate; cbn in *; [inversion H; subst; rewrite Nat.add_0_r; reflexivity|].
        rewrite (IH (S q) j H). do 2 f_equal. lia. }
      eapply nth_error_In. exact (Hgen _ 0%nat i Hi). }
    apply (Permutation_in _ (Permutation_sym Hkey)) in Hin. apply in_map_iff in Hin. destruct Hin as (el & Eel & Hel).
    unfold rkey in Eel. injection Eel as E1 _. eauto. }
  (* some term is left *)
  assert (Hleft : t < Z.of_nat (length (m_elements r))).
  { destruct (Hterm dz Hdz) as (i & el & Hi & Hel & Hid). subst i. apply Hsplit in Hel. destruct Hel as [Hel|Hel].
    - pose proof (Hx1 el Hel) as E. rewrite (proj2 (slot_place q_fops cl cs n c mode after x0 g0 sv s0 Hmk Hrows k r row el dz Hk Hrow Hi)) in E.
      rewrite Hxz, (Hnegel el) in E by (apply Hsplit; auto). discriminate.
    - destruct (Z_lt_le_dec t (Z.of_nat (length (m_elements r)))); [assumption|]. rewrite skipn_all2 in Hel by lia. destruct Hel. }
  assert (Hgood0 : t = 0 -> 0 < m_max r).
  { intros ->. destruct Hsome as [(d1 & Hd1 & Hx)|H]; [|exact H]. exfalso. destruct (Hterm d1 Hd1) as (i & el & Hi & Hel & Hid). subst i.
    pose proof (Hx2 el Hel) as E. rewrite (proj2 (slot_place q_fops cl cs n c mode after x0 g0 sv s0 Hmk Hrows k r row el d1 Hk Hrow Hi)) in E.
    rewrite Hx, (Hnegel el Hel) in E. discriminate. }
  destruct (Hterm e He) as (i & el & Hi & Hel & Hid). subst i.
  destruct (slot_place q_fops cl cs n c mode after x0 g0 sv s0 Hmk Hrows k r row el e Hk Hrow Hi) as [Eslot Ecol]. fold eb in Eslot.
  destruct (Hval el Hel) as (e' & He' & Hf & (cost & Hc1 & Hvalue)). rewrite Hi in He'. injection He' as <-.
  exists cost. split; [rewrite <- Hc1; apply Hlin|]. cbv zeta.
  assert (Hil : (rc_id el < length (m_elements r))%nat) by (apply nth_error_Some; congruence).
  pose proof (elements_before_S cs k r Hk) as Hle. fold eb in Hle.
  destruct (nth_error P (eb + rc_id el)) as [p|] eqn:Ep; [|apply nth_error_None in Ep; lia].
  rewrite <- Eslot in Ep.
  rewrite (Hone e He) in Hvalue. cbn [term_cost Z.ltb Z.compare] in Hvalue.
  assert (Hout : forall q, ~ (eb <= q < eb + length (m_elements r))%nat -> nth_error (s_P s') q = nth_error P q).
  { intros q Hq. apply HP3. intros Hin. apply Hq. apply in_map_iff in Hin. destruct Hin as (el' & <- & Hel').
    destruct (Hval el' Hel') as (e2 & He2 & _). rewrite (proj1 (slot_place q_fops cl cs n c mode after x0 g0 sv s0 Hmk Hrows k r row el' e2 Hk Hrow He2)).
    fold eb. assert (rc_id el' < length (m_elements r))%nat by (apply nth_error_Some; congruence). lia. }
  assert (Hkl : (k < length (s_pi s))%nat) by (destruct Hs as (_ & _ & -> & _); apply nth_error_Some; congruence).
  assert (Hratio : (0 <= kappa / (1 - kappa))%Q).
  { apply Qle_shift_div_l; lra. }
  (* the reduced cost afterwards *)
  assert (Hafter : forall p' dpi, nth_error (s_P s') (slot_of row el) = Some p' -> (forall j, j <> k -> nth_error (s_pi s') j = nth_error (s_pi s) j) ->
    (nth k (s_pi s') 0 == nth k (s_pi s) 0 + dpi)%Q ->
    (current_cost cs (s_P s') (s_pi s') (f_var e) cost == rc_value el - (dpi + (p' - p)))%Q).
  { intros p' dpi Hp' Hj Hdpi. rewrite Hvalue.
    rewrite (cost_change theta k r row P s s' (rc_id el) e cost p p' dpi Hk Hi Hs Hsz Hrow Hdec ltac:(rewrite Eslot in Ep; exact Ep) ltac:(rewrite Eslot in Hp'; exact Hp') Hout Hj Hdpi).
    rewrite (Hone e He). change (inject_Z 1) with 1%Q. ring. }
  destruct Hcase as [(-> & Epi & r0 & Hr0 & Ed)|[(_ & Et & _)|(Ht & rs & rs1 & Hrs & Hrs1 & Ed & Hpi)]]; [|lia|].
  - change (skipn (Z.to_nat 0) T) with T in *.
    assert (Hq0 : forall a, In a T -> match mode with minimize => (0 <= rc_value a)%Q | maximize => (rc_value a <= 0)%Q end).
    { intros a Hain. specialize (Hgood ltac:(rewrite Hneg0; specialize (Hgood0 eq_refl); lia) a Hain). apply q_better_false in Hgood. exact Hgood. }
    assert (HrT : In r0 T). { rewrite nth_error_app1 in Hr0 by lia. eapply nth_error_In; eassumption. }
    pose proof (HP2 el p Hel Ep) as Hp'. unfold moved in Hp'. rewrite (Hnegel el Hel) in Hp'. cbn [xorb] in Hp'.
    rewrite <- Ecol, (Hx2 el Hel), (Hnegel el Hel) in Hv. injection Hv as <-.
    pose proof (Hafter _ 0%Q Hp' ltac:(intros; rewrite Epi; reflexivity) ltac:(rewrite Epi; ring)) as Haf.
    pose proof (Hq0 el Hel) as H1. pose proof (Hq0 r0 HrT) as H2. cbn [q_fops fl_sub fl_add fl_mul fl_div fl_of_Z] in *.
    set (ratio := (kappa / (inject_Z 1 - kappa))%Q) in *.
    assert (Hr : (0 <= ratio)%Q) by exact Hratio.
    assert (Eh : (rc_value r0 / inject_Z 2 == rc_value r0 * (1 # 2))%Q) by (change (inject_Z 2) with 2%Q; field).
    assert (Ed' : (d == delta + ratio * (rc_value r0 * (1 # 2)))%Q) by (rewrite Ed, Eh; reflexivity).
    destruct mode; rewrite Haf; cbn [q_fops fl_sub]; nra.
  - assert (Hdpi : (nth k (s_pi s') 0 == nth k (s_pi s) 0 + (rc_value rs + rc_value rs1) * (1 # 2))%Q).
    { specialize (Hpi k). rewrite Nat.eqb_refl in Hpi. destruct (nth_error (s_pi s) k) as [w|] eqn:Ew; [|apply nth_error_None in Ew; lia].
      cbn [option_map] in Hpi. rewrite (nth_error_nth _ _ _ Hpi), (nth_error_nth _ _ _ Ew). cbn [q_fops fl_add fl_div fl_of_Z].
      change (inject_Z 2) with 2%Q. field. }
    assert (Hpj : forall j, j <> k -> nth_error (s_pi s') j = nth_error (s_pi s) j).
    { intros j Hj. rewrite Hpi. destruct (Nat.eqb_spec j k); [contradiction|reflexivity]. }
    (* order *)
    assert (HT1 : In rs (firstn (Z.to_nat t) T) /\ In rs1 (skipn (Z.to_nat t) T)).
    { split.
      - rewrite <- (firstn_skipn (Z.to_nat t) T), nth_error_app1 in Hrs by (rewrite firstn_length; lia). eapply nth_error_In; eassumption.
      - rewrite <- (firstn_skipn (Z.to_nat t) T), nth_error_app2 in Hrs1 by (rewrite firstn_length; lia). eapply nth_error_In; eassumption. }
    assert (Hle2 : forall i j a a', (i <= j)%nat -> nth_error T i = Some a -> nth_error T j = Some a' ->
      match mode with minimize => (rc_value a <= rc_value a')%Q | maximize => (rc_value a' <= rc_value a)%Q end).
    { intros i j a a' Hij Hai Haj. destruct (Nat.eq_dec i j) as [->|Hne]; [rewrite Hai in Haj; injection Haj as <-; destruct mode; lra|].
      assert (Hin : in_order q_fops mode a a').
      { destruct (nth_error_split _ _ Hai) as (l1 & l2 & ET & Hl1). rewrite ET in Hsorted, Haj. apply StronglySorted_app in Hsorted.
        destruct Hsorted as (_ & Hs2 & _). inversion Hs2 as [|? ? _ Hfa]; subst. rewrite Forall_forall in Hfa. apply Hfa.
        rewrite nth_error_app2 in Haj by lia. destruct (j - length l1)%nat eqn:Ej; [lia|]. cbn in Haj. eapply nth_error_In; eassumption. }
      unfold in_order in Hin. rewrite rc_lt_better in Hin. apply q_better_false in Hin. exact Hin. }
    pose proof (Hle2 (Z.to_nat (t - 1)) (Z.to_nat t) rs rs1 ltac:(lia) Hrs Hrs1) as Hgap.
    assert (Hi' : exists j, nth_error T j = Some el /\ ((j <= Z.to_nat (t - 1))%nat /\ In el (firstn (Z.to_nat t) T) \/ (Z.to_nat t <= j)%nat /\ In el (skipn (Z.to_nat t) T))).
    { apply In_nth_error in Hel. destruct Hel as (j & Hj). exists j. split; [assumption|].
      destruct (le_lt_dec (Z.to_nat t) j) as [H|H]; [right|left]; (split; [lia|]).
      - rewrite <- (firstn_skipn (Z.to_nat t) T), nth_error_app2 in Hj by (rewrite firstn_length; lia). eapply nth_error_In; eassumption.
      - rewrite <- (firstn_skipn (Z.to_nat t) T), nth_error_app1 in Hj by (rewrite firstn_length; lia). eapply nth_error_In; eassumption. }
    set (ratio := (kappa / (inject_Z 1 - kappa))%Q) in *.
    assert (Hr : (0 <= ratio)%Q) by exact Hratio.
    cbn [q_fops fl_sub fl_add fl_mul fl_div fl_of_Z] in Ed. fold ratio in Ed.
    assert (Ed' : (d == delta + ratio * (rc_value rs1 - rc_value rs))%Q) by (rewrite Ed; reflexivity). clear Ed.
    destruct Hi' as (j & Hj & [[Hjl Hin]|[Hjl Hin]]).
    + pose proof (Hx1 el Hin) as Ev. rewrite Ecol, Hv, (Hnegel el Hel) in Ev. injection Ev as ->.
      pose proof (HP1 el p Hin Ep) as Hp'. unfold moved in Hp'. rewrite (Hnegel el Hel) in Hp'. cbn [xorb] in Hp'.
      pose proof (Hafter _ _ Hp' Hpj Hdpi) as Haf. pose proof (Hle2 j _ el rs Hjl Hj Hrs) as H1. cbn [q_fops fl_add] in Haf.
      cbn [negb]. destruct mode; rewrite Haf; nra.
    + pose proof (Hx2 el Hin) as Ev. rewrite Ecol, Hv, (Hnegel el Hel) in Ev. injection Ev as ->.
      pose proof (HP2 el p Hin Ep) as Hp'. unfold moved in Hp'. rewrite (Hnegel el Hel) in Hp'. cbn [xorb] in Hp'.
      pose proof (Hafter _ _ Hp' Hpj Hdpi) as Haf. pose proof (Hle2 _ j rs1 el Hjl Hrs1 Hj) as H1. cbn [q_fops fl_sub] in Haf.
      destruct mode; rewrite Haf; nra.
Qed.

Lemma update_row_facts push kappa delta theta k r (s s' : state Q G) b : nth_error cs k = Some r -> sized cs n s ->
  update_row q_fops ro std_sort sv push kappa delta theta k s = Some (s', b) -> length (s_x s') = n ->
  row_satisfied (s_x s') r /\ forall v, ~ In v (map f_var (m_elements r)) -> nth_error (s_x s') v = nth_error (s_x s) v.
Proof.
  intros Hk Hs H Hl. apply update_row_keeps in H. destruct H as [Hv Hkeep]. split.
  - destruct (is_valid_constraint_ok q_fops cl cs n c mode after x0 g0 sv s0 Hmk Hrows (s_x s') k r Hl Hk) as (b' & Hb & Hiff).
    rewrite Hv in Hb. injection Hb as <-. apply Hiff. reflexivity.
  - destruct (row_matches q_fops cl cs n c mode after x0 g0 sv s0 Hmk Hrows k r Hk) as (row & Hrow & Hrel).
    intros v Hvr. apply (Hkeep row Hrow v). intros Hin. apply Hvr. clear -Hrel Hin.
    induction Hrel as [|p e row els Hp HF IH]; [exact Hin|]. destruct Hin as [<-|Hin].
    + left. symmetry. apply Hp.
    + right. apply IH, Hin.
Qed.
Lemma current_is_reduced theta k P pi v cost : (theta == 1)%Q ->
  (reduced_cost q_fops cs theta k P pi v cost == current_cost cs P pi v cost)%Q.
Proof.
  intros Ht. unfold reduced_cost, current_cost. cbn [q_fops fl_sub].
  rewrite (sum_over_same (fun p => let '(slot, _, _) := p in nth slot P 0%Q) (preference q_fops theta k P)); [reflexivity|].
  intros [[slot row] e] _. unfold preference. cbn [q_fops fl_mul fl_of_Z]. change (inject_Z 0) with 0%Q.
  destruct (Nat.eqb row k); [rewrite Ht; ring|reflexivity].
Qed.
Lemma lhs_strict (x y : list bool) els : (forall e, In e els -> f_factor e = 1) ->
  (forall e, In e els -> as_assignment x (f_var e) = true -> as_assignment y (f_var e) = true) ->
  forall d, In d els -> as_assignment x (f_var d) = false -> as_assignment y (f_var d) = true ->
  lhs (as_assignment x) els < lhs (as_assignment y) els.
Proof.
  assert (Hle : forall els, (forall e, In e els -> f_factor e = 1) ->
    (forall e, In e els -> as_assignment x (f_var e) = true -> as_assignment y (f_var e) = true) ->
    fold_right Z.add 0 (map (fun e => f_factor e * bz (as_assignment x (f_var e))) els) <=
    fold_right Z.add 0 (map (fun e => f_factor e * bz (as_assignment y (f_var e))) els)).
  { clear. induction els as [|e els IH]; intros H1 H2; cbn [map fold_right]; [lia|].
    specialize (IH (fun a Ha => H1 a (or_intror Ha)) (fun a Ha => H2 a (or_intror Ha))). rewrite (H1 e (or_introl eq_refl)).
    specialize (H2 e (or_introl eq_refl)). destruct (as_assignment x (f_var e)); [rewrite H2 by reflexivity; lia|].
    destruct (as_assignment y (f_var e)); change (bz true) with 1; change (bz false) with 0; lia. }
  intros H1 H2 d Hd Hx Hy. rewrite !lhs_seq. revert H1 H2 Hd. induction els as [|e els IH]; intros H1 H2 Hd; [destruct Hd|]. cbn [map fold_right].
  pose proof (H1 e (or_introl eq_refl)) as E1. pose proof (H2 e (or_introl eq_refl)) as E2.
  pose proof (fun a Ha => H1 a (or_intror Ha)) as H1'. pose proof (fun a Ha => H2 a (or_intror Ha)) as H2'. destruct Hd as [->|Hd].
  - specialize (Hle els H1' H2'). rewrite E1, Hx, Hy. change (bz true) with 1; change (bz false) with 0; lia.
  - specialize (IH H1' H2' Hd). rewrite E1. destruct (as_assignment x (f_var e)); [rewrite E2 by reflexivity; lia|].
    destruct (as_assignment y (f_var e)); change (bz true) with 1; change (bz false) with 0; lia.
Qed.

(** A second update of the same row, at once, keeps the assignment. *)
Lemma repeated kappa delta theta kappa2 delta2 theta2 k r (s s1 s2 : state Q G) b1 b2 :
  mode = minimize -> (0 <= kappa < 1)%Q -> (0 < delta)%Q -> (theta2 == 1)%Q ->
  nth_error cs k = Some r -> row_satisfiable r -> sized cs n s -> (forall e, In e (m_elements r) -> f_factor e = 1) ->
  update_row q_fops ro std_sort sv None kappa delta theta k s = Some (s1, b1) ->
  (exists d, In d (m_elements r) /\ nth_error (s_x s1) (f_var d) = Some false) ->
  (exists d, In d (m_elements r) /\ nth_error (s_x s1) (f_var d) = Some true) \/ 0 < m_max r ->
  update_row q_fops ro std_sort sv None kappa2 delta2 theta2 k s1 = Some (s2, b2) ->
  s_x s2 = s_x s1.
Proof.
  intros Hmode Hkap Hdel Hth Hk Hsat Hs Hone Hup Hz Ho Hup2.
  assert (Hs1 : sized cs n s1).
  { destruct (update_parts q_fops ro std_sort Hperm Hsorts Hshuf q_ordered cl cs n c mode after x0 g0 sv s0 Hmk Hcl Hrows Hcost kappa delta theta k r s s1 b1 Hk Hsat Hs Hup)
      as (row & P & T & t & rest & g & lo & hi & Hrow & Hrel & Hdec & HlP & Hpa & Hb & Hc & Hlo & Hlong & Ha).
    eapply (affect_effect q_fops cl cs n c mode after x0 g0 sv s0 Hmk Hcl Hrows kappa delta theta k r row P T t rest g lo hi s s1 b1); eassumption. }
  assert (Hs2 : sized cs n s2).
  { destruct (update_parts q_fops ro std_sort Hperm Hsorts Hshuf q_ordered cl cs n c mode after x0 g0 sv s0 Hmk Hcl Hrows Hcost kappa2 delta2 theta2 k r s1 s2 b2 Hk Hsat Hs1 Hup2)
      as (row & P & T & t & rest & g & lo & hi & Hrow & Hrel & Hdec & HlP & Hpa & Hb & Hc & Hlo & Hlong & Ha).
    eapply (affect_effect q_fops cl cs n c mode after x0 g0 sv s0 Hmk Hcl Hrows kappa2 delta2 theta2 k r row P T t rest g lo hi s1 s2 b2); eassumption. }
  pose proof (proj1 Hs1) as Hl1. pose proof (proj1 Hs2) as Hl2. destruct (Hrows r (nth_error_In _ _ Hk)) as [Hnd Hvar].
  destruct (update_row_facts _ _ _ _ _ _ _ _ _ Hk Hs Hup Hl1) as [Hsat1 _].
  destruct (update_row_facts _ _ _ _ _ _ _ _ _ Hk Hs1 Hup2 Hl2) as [Hsat2 Hkeep].
  assert (Hin : forall x v, length x = n -> (v < n)%nat -> nth_error x v = Some (as_assignment x v)).
  { intros x v Hx Hv. unfold as_assignment. apply nth_error_nth'. lia. }
  set (val := fun i => match nth_error (m_elements r) i with
    | Some e => match c (f_var e) (s_x s1) with Some cost => reduced_cost q_fops cs theta2 k (s_P s1) (s_pi s1) (f_var e) cost | None => 0%Q end
    | None => 0%Q end).
  assert (Hgr : greedy q_fops mode r val (s_x s2)).
  { apply (update_greedy q_fops ro std_sort Hperm Hsorts Hshuf q_ordered cl cs n c mode after x0 g0 sv s0 Hmk Hcl Hrows Hcost None kappa2 delta2 theta2 k r s1 s2 b2 val Hk Hsat Hs1 Hup2).
    intros i e He. destruct (Hcost (f_var e) (s_x s1) (Hvar e (nth_error_In _ _ He)) Hl1) as (cost & Ecost). exists (val i). split; [|reflexivity].
    exists cost. split; [exact Ecost|]. unfold val. rewrite He, Ecost, (Hone e (nth_error_In _ _ He)). reflexivity. }
  assert (Hset : forall i e, nth_error (m_elements r) i = Some e ->
    if as_assignment (s_x s1) (f_var e) then (val i < 0)%Q else (0 < val i)%Q).
  { intros i e He. pose proof (nth_error_In _ _ He) as Hein.
    destruct (settled kappa delta theta k r s s1 b1 e (as_assignment (s_x s1) (f_var e)) Hkap Hk Hsat Hs Hone Hup Hz Ho Hein
                (Hin (s_x s1) (f_var e) Hl1 (Hvar e Hein))) as (cost & Ecost & Hq).
    rewrite Hmode in Hq. cbv zeta in Hq. pose proof (current_is_reduced theta2 k (s_P s1) (s_pi s1) (f_var e) cost Hth) as Er.
    assert (Ev : val i = reduced_cost q_fops cs theta2 k (s_P s1) (s_pi s1) (f_var e) cost) by (unfold val; rewrite He, Ecost; reflexivity).
    rewrite Ev. clear Ev. destruct (as_assignment (s_x s1) (f_var e)); lra. }
  rewrite Hmode in Hgr. destruct Hgr as (G1 & G2 & G3).
  assert (Hch : forall e, In e (m_elements r) -> (chosen (s_x s2) e <-> as_assignment (s_x s2) (f_var e) = true)).
  { intros e He. unfold chosen. rewrite (Hone e He), (Hin _ _ Hl2 (Hvar e He)). cbn [Z.ltb Z.compare]. split; [intros H; injection H; auto|intros ->; reflexivity]. }
  assert (Hboth : forall e e', In e (m_elements r) -> In e' (m_elements r) -> as_assignment (s_x s1) (f_var e) = false -> as_assignment (s_x s2) (f_var e) = true ->
    as_assignment (s_x s1) (f_var e') = true -> as_assignment (s_x s2) (f_var e') = false -> False).
  { intros e e' He He' A1 A2 B1 B2. apply In_nth_error in He as Hi. destruct Hi as (i & Hi). apply In_nth_error in He' as Hi'. destruct Hi' as (i' & Hi').
    specialize (G1 i e i' e' Hi Hi' (proj2 (Hch e He) A2)). rewrite (Hch e' He'), B2 in G1. specialize (G1 ltac:(discriminate)).
    apply q_better_false in G1. pose proof (Hset i e Hi) as V1. pose proof (Hset i' e' Hi') as V2. rewrite A1 in V1. rewrite B1 in V2. cbv beta iota in V1, V2. lra. }
  assert (Hsame : forall e, In e (m_elements r) -> as_assignment (s_x s2) (f_var e) = as_assignment (s_x s1) (f_var e)).
  { intros e He. destruct (as_assignment (s_x s1) (f_var e)) eqn:E1, (as_assignment (s_x s2) (f_var e)) eqn:E2; try reflexivity; exfalso.
    - assert (Hsub : forall a, In a (m_elements r) -> as_assignment (s_x s2) (f_var a) = true -> as_assignment (s_x s1) (f_var a) = true).
      { intros a Ha A2. destruct (as_assignment (s_x s1) (f_var a)) eqn:A1; [reflexivity|]. exfalso. eapply (Hboth a e); eassumption. }
      pose proof (lhs_strict (s_x s2) (s_x s1) _ Hone Hsub e He E2 E1) as Hlt. destruct Hsat1 as [_ Hm].
      apply In_nth_error in He as Hi. destruct Hi as (i & Hi). assert (Hm2 : lhs (as_assignment (s_x s2)) (m_elements r) < m_max r) by lia.
      specialize (G3 Hm2 i e Hi). rewrite (Hch e He), E2 in G3. specialize (G3 ltac:(discriminate)). apply q_better_false in G3. cbn [q_fops fl_of_Z] in G3.
      change (inject_Z 0) with 0%Q in G3. pose proof (Hset i e Hi) as V. rewrite E1 in V. lra.
    - assert (Hsub : forall a, In a (m_elements r) -> as_assignment (s_x s1) (f_var a) = true -> as_assignment (s_x s2) (f_var a) = true).
      { intros a Ha A2. destruct (as_assignment (s_x s2) (f_var a)) eqn:A1; [reflexivity|]. exfalso. eapply (Hboth e a); eassumption. }
      pose proof (lhs_strict (s_x s1) (s_x s2) _ Hone Hsub e He E1 E2) as Hlt. destruct Hsat1 as [Hm _].
      apply In_nth_error in He as Hi. destruct Hi as (i & Hi). assert (Hm2 : m_min r < lhs (as_assignment (s_x s2)) (m_elements r)) by lia.
      specialize (G2 Hm2 i e Hi). rewrite (Hch e He), E2 in G2. specialize (G2 eq_refl). apply q_better_false in G2. cbn [q_fops fl_of_Z] in G2.
      change (inject_Z 0) with 0%Q in G2. pose proof (Hset i e Hi) as V. rewrite E1 in V. lra. }
  apply nth_error_ext. intros v. destruct (in_dec Nat.eq_dec v (map f_var (m_elements r))) as [Hv|Hv]; [|apply Hkeep, Hv].
  apply in_map_iff in Hv. destruct Hv as (e & <- & He). rewrite (Hin _ _ Hl2 (Hvar e He)), (Hin _ _ Hl1 (Hvar e He)). f_equal. apply Hsame, He.
Qed.
End Exact.
