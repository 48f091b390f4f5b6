(** Proofs about the row update of the random solver. *)
From Coq Require Import Permutation.
From Verif Require Import Base Problem_model Problem_spec Merged_model Merged_spec Merged_proofs Classify_model Classify_proofs Matrix_model
  Rows_model RandomRow_model Rows_spec Rows_proofs RandomRow_spec.
Open Scope Z_scope.

(** ** Prefixes of the sorted reduced costs *)
Section Prefix.
Context {F G : Type} (fo : fops F) (ro : rops G).
Variables (row : list (nat * nat)) (n np : nat) (T rest : list (rc F)) (x0 : list bool) (kappa delta : F).
Hypothesis Hid : forall e, In e T -> (rc_id e < length row)%nat.
Hypothesis Hrowb : forall p, In p row -> (fst p < np)%nat /\ (snd p < n)%nat.
Hypothesis Hnd : NoDup (map (col_of row) T).

(** The first [i] elements have the values [B]. *)
Definition inv (B : nat -> bool) (i : nat) (x : list bool) (P : list F) : Prop :=
  length x = n /\ length P = np /\
  (forall j e, nth_error T j = Some e -> (j < i)%nat -> nth_error x (col_of row e) = Some (B j)) /\
  (forall v, ~ In v (map (col_of row) T) -> nth_error x v = nth_error x0 v).
Definition fsum (t : nat) : Z := fold_right Z.add 0 (map rc_f (firstn t T)).

Lemma inv_ext B B' i x P : (forall j, (j < i)%nat -> B j = B' j) -> inv B i x P -> inv B' i x P.
Proof.
  intros E (H1 & H2 & H3 & H4). split; [assumption|]. split; [assumption|]. split; [|assumption].
  intros j e Hj Hi. rewrite <- (E j Hi). eapply H3; eassumption.
Qed.
Lemma fsum_S i e : nth_error T i = Some e -> fsum (S i) = fsum i + rc_f e.
Proof.
  clear. unfold fsum. revert i. induction T as [|a l IH]; intros [|i] H; cbn in H; try discriminate.
  - inversion H; subst. cbn. lia.
  - specialize (IH i H). change (firstn (S (S i)) (a :: l)) with (a :: firstn (S i) l).
    change (firstn (S i) (a :: l)) with (a :: firstn i l). cbn [map fold_right]. lia.
Qed.
Lemma nth_R i e : nth_error T i = Some e -> nth_error (T ++ rest) i = Some e.
Proof. intros H. rewrite nth_error_app1; [assumption|]. apply nth_error_Some. congruence. Qed.

Lemma random_set_ok B i x P e : inv B i x P -> nth_error T i = Some e ->
  exists x' P', random_set fo row kappa delta e (B i) x P = Some (x', P') /\ inv B (S i) x' P'.
Proof.
  intros (H1 & H2 & H3 & H4) He. unfold random_set.
  pose proof (Hid e (nth_error_In _ _ He)) as Hi.
  assert (Hn : nth_error row (rc_id e) = Some (nth (rc_id e) row (0, 0)%nat)) by (apply nth_error_nth'; assumption).
  destruct (nth (rc_id e) row (0, 0)%nat) as [slot col] eqn:En.
  assert (Hc : col_of row e = col) by (unfold col_of; rewrite En; reflexivity).
  rewrite Hn. cbn [bind]. destruct (Hrowb (slot, col)) as [Hs Hx]; [eapply nth_error_In; eassumption|]. cbn [fst snd] in *.
  destruct (list_upd_some x col (B i)) as [x1 Hx1]; [lia|]. rewrite Hx1. cbn [bind].
  match goal with |- context [list_modify P slot ?f] => destruct (list_modify_some P slot f) as (a & P1 & _ & _ & HP1); [lia|] end.
  rewrite HP1. cbn [bind]. exists x1, P1. split; [reflexivity|].
  pose proof (list_upd_length _ _ _ _ Hx1) as Hlx. pose proof (list_modify_length _ _ _ _ HP1) as HlP.
  split; [lia|]. split; [lia|]. split.
  - intros j e' Hj Hji. rewrite (list_upd_nth _ _ _ _ _ Hx1). destruct (Nat.eqb_spec (col_of row e') col) as [E|E].
    + assert (Eij : j = i).
      { rewrite NoDup_nth_error in Hnd. apply Hnd.
        - rewrite map_length. apply nth_error_Some. congruence.
        - rewrite !nth_error_map, Hj, He. cbn. congruence. }
      subst j. reflexivity.
    + apply (H3 j); [assumption|]. assert (j <> i); [|lia]. intros ->. rewrite He in Hj. inversion Hj; subst. contradiction.
  - intros v Hv. rewrite (list_upd_nth _ _ _ _ _ Hx1). destruct (Nat.eqb_spec v col) as [E|E]; [|apply H4; assumption].
    exfalso. apply Hv. subst v. rewrite <- Hc. apply in_map. eapply nth_error_In; eassumption.
Qed.

Lemma random_first_ok lo m : (forall e, In e T -> rc_f e = 1 \/ rc_f e = -1) ->
  forall i x P, (i + m <= length T)%nat -> fsum i < lo -> inv (fun _ => true) i x P ->
  exists i' x' P', random_first fo row (T ++ rest) lo kappa delta m i (fsum i) x P = Some (i', fsum i', x', P') /\
    (i <= i' <= i + m)%nat /\ inv (fun _ => true) i' x' P' /\ (fsum i' = lo \/ (i' = (i + m)%nat /\ fsum i' < lo)).
Proof.
  intros Hf. induction m as [|m IH]; intros i x P Hm Hlo Hinv; cbn [random_first].
  - exists i, x, P. split; [reflexivity|]. split; [lia|]. split; [assumption|]. right. split; [lia|assumption].
  - destruct (nth_error T i) as [e|] eqn:E; [|apply nth_error_None in E; lia]. rewrite (nth_R i e E). cbn [bind].
    destruct (random_set_ok (fun _ => true) i x P e Hinv E) as (x1 & P1 & Hs & Hi1). rewrite Hs. cbn [bind].
    rewrite <- (fsum_S i e E). pose proof (Hf e (nth_error_In _ _ E)) as Hfe. pose proof (fsum_S i e E) as HS.
    destruct (Z.leb_spec lo (fsum (S i))) as [Hle|Hle].
    + exists (S i), x1, P1. split; [reflexivity|]. split; [lia|]. split; [assumption|]. left. lia.
    + destruct (IH (S i) x1 P1) as (i' & x' & P' & H1 & H2 & H3 & H4); [lia|lia|assumption|].
      exists i', x', P'. split; [assumption|]. split; [lia|]. split; [assumption|]. destruct H4 as [H4|[H4 H5]]; [auto|right; split; [lia|assumption]].
Qed.
Lemma random_rest_ok t m : forall i x P, (i + m = length T)%nat -> (t <= i)%nat -> inv (fun j => Nat.ltb j t) i x P ->
  exists x' P', random_rest fo row (T ++ rest) kappa delta m i x P = Some (x', P') /\ inv (fun j => Nat.ltb j t) (length T) x' P'.
Proof.
  induction m as [|m IH]; intros i x P Hm Ht Hinv; cbn [random_rest].
  - exists x, P. split; [reflexivity|]. replace (length T) with i by lia. assumption.
  - destruct (nth_error T i) as [e|] eqn:E; [|apply nth_error_None in E; lia]. rewrite (nth_R i e E). cbn [bind].
    destruct (random_set_ok _ i x P e Hinv E) as (x1 & P1 & Hs & Hi1).
    replace (i <? t)%nat with false in Hs by (symmetry; apply Nat.ltb_ge; lia). rewrite Hs. cbn [bind].
    apply IH; [lia|lia|assumption].
Qed.
Lemma random_second_ok mode lo hi m : forall i x P g, (i + m = length T)%nat -> lo <= fsum i <= hi -> inv (fun _ => true) i x P ->
  exists t x' P' g', random_second fo ro mode row (T ++ rest) lo hi kappa delta m i (fsum i) x P g = Some (x', P', g') /\
    (t <= length T)%nat /\ lo <= fsum t <= hi /\ inv (fun j => Nat.ltb j t) (length T) x' P'.
Proof.
  induction m as [|m IH]; intros i x P g Hm Hb Hinv; cbn [random_second].
  - exists i, x, P, g. split; [reflexivity|]. split; [lia|]. split; [assumption|]. replace (length T) with i by lia.
    eapply inv_ext; [|exact Hinv]. intros j Hj. cbn beta. symmetry. apply Nat.ltb_lt. assumption.
  - destruct (nth_error T i) as [e|] eqn:E; [|apply nth_error_None in E; lia]. rewrite (nth_R i e E). cbn [bind].
    rewrite <- (fsum_S i e E).
    match goal with |- context [let '(_, _) := ?t in _] => destruct t as [valid g1] eqn:Ev end.
    destruct valid.
    + destruct (random_set_ok (fun _ => true) i x P e Hinv E) as (x1 & P1 & Hs & Hi1). rewrite Hs. cbn [bind].
      apply IH; [lia| |assumption].
      destruct ((lo <=? fsum (S i)) && (fsum (S i) <=? hi)) eqn:Ec; [lia|discriminate].
    + assert (Hinv' : inv (fun j => Nat.ltb j i) i x P).
      { eapply inv_ext; [|exact Hinv]. intros j Hj. cbn beta. symmetry. apply Nat.ltb_lt. assumption. }
      destruct (random_set_ok _ i x P e Hinv' E) as (x1 & P1 & Hs & Hi1). cbn beta in Hs. rewrite Nat.ltb_irrefl in Hs. rewrite Hs. cbn [bind].
      destruct (random_rest_ok i m (S i) x1 P1) as (x2 & P2 & H1 & H2); [lia|lia|assumption|]. rewrite H1. cbn [bind].
      exists i, x2, P2, g1. split; [reflexivity|]. split; [lia|]. auto.
Qed.
End Prefix.

Section Sum.
Context {F : Type}.
Lemma prefix_sum (row : list (nat * nat)) x (T : list (rc F)) : forall t,
  (forall j e, nth_error T j = Some e -> nth_error x (col_of row e) = Some (Nat.ltb j t)) ->
  fold_right Z.add 0 (map (term x row) (map rkey T)) = fsum T t.
Proof.
  unfold fsum. induction T as [|e T IH]; intros t H; [destruct t; reflexivity|].
  pose proof (H 0%nat e eq_refl) as H0. unfold col_of in H0. apply nth_error_nth with (d := false) in H0.
  cbn [map fold_right]. unfold term at 1. unfold rkey at 1 2. cbn [fst snd]. unfold as_assignment at 1. rewrite H0.
  destruct t as [|t]; cbn [Nat.ltb Nat.leb bz].
  - rewrite (IH 0%nat); [cbn; lia|]. intros j e' Hj. exact (H (S j) e' Hj).
  - change (firstn (S t) (e :: T)) with (e :: firstn t T). cbn [map fold_right].
    rewrite (IH t); [lia|]. intros j e' Hj. exact (H (S j) e' Hj).
Qed.
End Sum.

Section Random.
Context {F G : Type} (fo : fops F) (ro : rops G)
        (std_sort : forall A : Type, (A -> A -> bool) -> list A -> list A).
Hypothesis Hperm : permutes std_sort.
Hypothesis Hshuf : shuffles ro.
Variables (cs : list merged) (n : nat) (c : nat -> list bool -> option F)
          (mode : objective_type) (after : list (rc F)) (x0 : list bool) (g0 : G) (sv : solver F) (s0 : state F G).
Hypothesis Hmk : make_solver fo S_random cs n c mode after x0 g0 = Ok (sv, s0).
Hypothesis Hrows : forall r, In r cs -> row_ok n r.
Hypothesis Hcost : cost_defined n c.
Notation row_rel' := (row_rel cs sv).

Lemma random_sum_ok P l : forall a, length P = elements_number cs ->
  (forall p, In p l -> (fst p < elements_number cs)%nat /\ (snd p < length cs)%nat /\ exists f, factor sv (fst p) = Some f) ->
  exists u, random_sum fo sv P l a = Some u.
Proof.
  induction l as [|[slot row] l IH]; intros a HP Hl; cbn [random_sum]; [eauto|].
  destruct (Hl (slot, row) (or_introl eq_refl)) as (Hs & Hr & f & Hf). cbn [fst snd] in *. rewrite Hf. cbn [bind].
  destruct (nth_error P slot) as [p|] eqn:Ep; [|apply nth_error_None in Ep; lia]. cbn [bind].
  apply IH; [assumption|]. intros; apply Hl; right; assumption.
Qed.
Lemma random_costs_ok x P first : length x = n -> length P = elements_number cs ->
  forall row els, Forall2 row_rel' row els -> (forall e, In e els -> (f_var e < n)%nat) -> (row <> [] -> (first < n)%nat) ->
  forall R r, (r + length row <= length R)%nat ->
  exists new, random_costs fo sv x P first row R r
                = Some (firstn r R ++ new ++ skipn (r + length row) R, (r + length row)%nat) /\
    map rkey new = combine (seq r (length row)) (map f_factor els).
Proof.
  intros Hx HP row els H. induction H as [|[slot col] e row els Hr HF IH]; intros Hv Hfi R r Hl; cbn [random_costs length].
  - exists []. rewrite Nat.add_0_r. cbn [app]. rewrite firstn_skipn. split; reflexivity.
  - destruct Hr as (Hfac & Hcol & Hslot). cbn [fst snd] in *. subst col.
    assert (Hve : (f_var e < n)%nat) by (apply Hv; left; reflexivity).
    destruct (column_ok fo S_random cs n c mode after x0 g0 sv s0 Hmk Hrows (f_var e) Hve) as (l & Hcl' & Hl'). rewrite Hcl'. cbn [bind].
    destruct (random_sum_ok P l (fl_of_Z fo 0) HP Hl') as (u & Hsum). rewrite Hsum. cbn [bind]. rewrite Hfac. cbn [bind].
    assert (Hsvc : sv_c sv = c) by (destruct (mk_fields fo S_random cs n c mode after x0 g0 sv s0 Hmk) as (? & ? & _ & _ & -> & _); reflexivity).
    rewrite Hsvc. destruct (Hcost first x) as [cf Hcf]; [apply Hfi; discriminate|assumption|]. rewrite Hcf. cbn [bind].
    set (el := mk_rc _ _ _). cbn [length] in Hl.
    destruct (list_upd_some R r el) as [R' HR']; [lia|]. rewrite HR'. cbn [bind].
    pose proof (list_upd_length _ _ _ _ HR') as HlR.
    destruct (IH (fun e' He' => Hv e' (or_intror He')) (fun _ => Hfi ltac:(discriminate)) R' (S r)) as (new & Hnew & Hkey); [lia|].
    exists (el :: new). split.
    + rewrite Hnew. pose proof (list_upd_firstn_skipn _ _ _ _ HR') as E.
      assert (Hlf : length (firstn r R) = r) by (apply firstn_length_le; lia).
      assert (E1 : firstn (S r) R' = firstn r R ++ [el]).
      { rewrite E. replace (S r) with (length (firstn r R) + 1)%nat by lia.
        rewrite firstn_app_2. cbn. reflexivity. }
      assert (E2 : skipn (S r + length row) R' = skipn (r + S (length row)) R).
      { rewrite E. rewrite skipn_app, Hlf. rewrite skipn_all2 by lia. cbn [app].
        replace (S r + length row - r)%nat with (S (length row)) by lia. cbn [skipn].
        change (match R with [] => [] | _ :: l0 => skipn r l0 end) with (skipn (S r) R).
        rewrite skipn_skipn'. f_equal. lia. }
      rewrite E1, E2, <- app_assoc, Nat.add_succ_r. reflexivity.
    + cbn [map seq combine]. f_equal. exact Hkey.
Qed.

(** What the update does, up to the last test. *)
Lemma random_update_shape kappa delta theta k r s lo hi : nth_error cs k = Some r -> sized cs n s ->
  nth_error (sv_b sv) k = Some (lo, hi) -> ctor_row S_random r = Ok (lo, hi) ->
  (0 < lo -> lo <= coefficient_sum r) ->
  exists t (T : list (rc F)) row x' P' R' g',
    random_update_row fo ro std_sort sv kappa delta theta k s
      = (do ok <- is_valid_constraint sv k x'; if ok then Some (mk_state x' P' (s_pi s) R' g', false) else None) /\
    length x' = n /\ length P' = elements_number cs /\ length R' = longest_row cs /\
    (t <= length T)%nat /\ lhs (as_assignment x') (m_elements r) = fsum T t /\
    (0 <= hi /\ lo <= fsum T t <= hi \/ t = 0%nat /\ hi < 0) /\
    (forall v, ~ In v (map f_var (m_elements r)) -> nth_error x' v = nth_error (s_x s) v) /\
    Forall2 row_rel' row (m_elements r) /\
    Permutation (map rkey T) (combine (seq 0 (length (m_elements r))) (map f_factor (m_elements r))).
Proof.
  intros Hk (Hsx & HsP & Hspi & HsR) Hb Hc Hlo.
  destruct (row_matches fo S_random cs n c mode after x0 g0 sv s0 Hmk Hrows k r Hk) as (row & Hrow & Hrel).
  destruct (ctor_row_facts S_random r lo hi ltac:(discriminate) Hc) as [Hf Hbs].
  destruct (Hrows r (nth_error_In _ _ Hk)) as [Hnd Hvar]. pose proof (Forall2_length _ _ _ Hrel) as Hlen.
  assert (Hle : lo <= hi) by lia.
  assert (Hcap : (length row <= length (s_R s))%nat) by (rewrite HsR, Hlen; apply longest_row_in; eapply nth_error_In; eassumption).
  assert (Hrowb : forall p, In p row -> (fst p < elements_number cs)%nat /\ (snd p < n)%nat).
  { intros p Hp. clear -Hrel Hp Hvar. revert Hp. revert Hvar. induction Hrel as [|q e row' els Hq HF IH]; intros Hvar Hp; [destruct Hp|].
    destruct Hp as [<-|Hp]; [|apply IH; [intros; apply Hvar; right; assumption|assumption]].
    destruct Hq as (_ & -> & Hl). split; [assumption|]. apply Hvar. left. reflexivity. }
  unfold random_update_row. rewrite Hrow. cbn [bind].
  destruct (decrease_ok fo theta row (s_P s)) as (P & HP & HlP); [intros p Hp; rewrite HsP; apply Hrowb, Hp|]. rewrite HP. cbn [bind].
  destruct (random_costs_ok (s_x s) P (match row with [] => O | (_, col) :: _ => col end) Hsx ltac:(lia) row _ Hrel Hvar) with (R := s_R s) (r := 0%nat) as (new & Hnew & Hkey).
  { intros Hne. destruct row as [|[slot col] row']; [contradiction|]. apply (Hrowb (slot, col)). left. reflexivity. } { lia. }
  rewrite Hnew. cbn [bind firstn app Nat.add]. rewrite Hlen. rewrite Hlen in Hkey.
  assert (Hlnew : length new = length (m_elements r)).
  { apply (f_equal (@length _)) in Hkey. rewrite map_length, combine_length, seq_length, map_length, Nat.min_id in Hkey. assumption. }
  set (R1 := new ++ skipn (length (m_elements r)) (s_R s)).
  assert (HlR1 : length R1 = longest_row cs) by (unfold R1; rewrite app_length, skipn_length; lia).
  destruct (calculator_sort_perm fo ro std_sort Hperm Hshuf (sv_mode sv) R1 (length (m_elements r)) (s_g s)) as (T & HT & HpT).
  destruct (calculator_sort fo ro std_sort (sv_mode sv) R1 (length (m_elements r)) (s_g s)) as [R3 g3]. cbn [fst] in HT.
  assert (HTkey : Permutation (map rkey T) (combine (seq 0 (length (m_elements r))) (map f_factor (m_elements r)))).
  { etransitivity; [apply Permutation_map, HpT|]. rewrite <- firstn_map. unfold R1. rewrite map_app, firstn_app, map_length, Hlnew, Nat.sub_diag.
    cbn [firstn]. rewrite app_nil_r, Hkey, firstn_all2 by (rewrite combine_length, seq_length, map_length; lia). reflexivity. }
  assert (HlT : length T = length (m_elements r)).
  { apply Permutation_length in HTkey. rewrite map_length, combine_length, seq_length, map_length, Nat.min_id in HTkey. assumption. }
  assert (HlR3 : length R3 = longest_row cs).
  { rewrite HT, app_length, skipn_length. lia. }
  assert (Hidin : forall e, In e T -> (rc_id e < length row)%nat /\ (rc_f e = 1 \/ rc_f e = -1)).
  { intros e He. assert (Hin : In (rkey e) (combine (seq 0 (length (m_elements r))) (map f_factor (m_elements r)))).
    { eapply Permutation_in; [exact HTkey|]. apply in_map. assumption. }
    rewrite <- (map_length f_factor) in Hin. apply combine_seq_nth in Hin. destruct Hin as [_ Hin]. rewrite Nat.sub_0_r in Hin.
    rewrite nth_error_map in Hin. destruct (nth_error (m_elements r) (rc_id e)) as [fe|] eqn:Ee; [|discriminate].
    cbn in Hin. inversion Hin as [Hfe]. split.
    - rewrite Hlen. apply nth_error_Some. congruence.
    - exact (Hf fe (nth_error_In _ _ Ee)). }
  pose proof (cols_NoDup cs sv row _ T Hrel Hnd HTkey) as HndT.
  assert (Hcols : forall v, ~ In v (map f_var (m_elements r)) -> ~ In v (map (col_of row) T)).
  { intros v Hv Hin. apply Hv. apply in_map_iff in Hin. destruct Hin as (e & <- & He). destruct (Hidin e He) as [Hi _].
    unfold col_of. assert (Hin : In (nth (rc_id e) row (0, 0)%nat) row) by (apply nth_In; assumption).
    revert Hin. generalize (nth (rc_id e) row (0, 0)%nat) as pp. intros pp Hin. clear -Hin Hrel. induction Hrel as [|q fe row' els Hq HF IH]; [destruct Hin|]. destruct Hin as [<-|Hin].
    - left. symmetry. apply Hq.
    - right. apply IH. assumption. }
  assert (Htot : fsum T (length T) = coefficient_sum r).
  { unfold fsum, coefficient_sum. rewrite firstn_all.
    transitivity (fold_right Z.add 0 (map snd (map rkey T))); [rewrite map_map; reflexivity|].
    rewrite (fold_add_perm _ _ (Permutation_map snd HTkey)). f_equal. rewrite <- (map_length f_factor (m_elements r)).
    generalize (map f_factor (m_elements r)) as l. generalize 0%nat as q.
    clear. intros q l. revert q. induction l as [|a l IH]; intros q; cbn; [reflexivity|]. f_equal. apply IH. }
  unfold bound_min, bound_max. rewrite Hb. cbn [option_map bind fst snd].
  assert (Hinv0 : inv row n (elements_number cs) T (s_x s) (fun _ => true) 0 (s_x s) P).
  { split; [assumption|]. split; [lia|]. split; [intros j e _ Hj; lia|reflexivity]. }
  assert (Hsum : forall t x P, inv row n (elements_number cs) T (s_x s) (fun j => Nat.ltb j t) (length T) x P ->
     lhs (as_assignment x) (m_elements r) = fsum T t).
  { intros t x P1 (_ & _ & Hv & _). rewrite (lhs_terms cs sv x row _ Hrel). rewrite <- (fold_add_perm _ _ (Permutation_map _ HTkey)).
    apply prefix_sum. intros j e Hj. apply (Hv j e Hj). apply nth_error_Some. congruence. }
  assert (Hid1 : forall e, In e T -> (rc_id e < length row)%nat) by (intros e He; apply (Hidin e He)).
  assert (Hid2 : forall e, In e T -> rc_f e = 1 \/ rc_f e = -1) by (intros e He; apply (Hidin e He)).
  assert (Hone : exists i x1 P1, (if lo <=? 0 then Some (O, 0, s_x s, P)
            else random_first fo row R3 lo kappa delta (Nat.max 1 (length (m_elements r))) 0 0 (s_x s) P) = Some (i, fsum T i, x1, P1) /\
     (i <= length T)%nat /\ inv row n (elements_number cs) T (s_x s) (fun _ => true) i x1 P1 /\ (0 <= hi /\ lo <= fsum T i <= hi \/ i = 0%nat /\ hi < 0)).
  { destruct (Z.leb_spec lo 0) as [H0|H0].
    - exists 0%nat, (s_x s), P. split; [reflexivity|]. split; [lia|]. split; [assumption|]. change (fsum T 0) with 0. lia.
    - assert (Hne : (0 < length T)%nat).
      { destruct T as [|e T']; [|cbn; lia]. cbn in Htot. specialize (Hlo H0). lia. }
      rewrite HT. change 0 with (fsum T 0) at 1.
      destruct (random_first_ok fo row n (elements_number cs) T (skipn (length (m_elements r)) R1) (s_x s) kappa delta Hid1 Hrowb HndT lo
        (Nat.max 1 (length (m_elements r))) Hid2 0%nat (s_x s) P) as (i & x1 & P1 & H1 & H2 & H3 & H4); [lia|exact H0|assumption|].
      exists i, x1, P1. split; [exact H1|]. split; [lia|]. split; [assumption|]. left. split; [lia|]. destruct H4 as [->|[-> H4]]; [lia|].
      replace (0 + Nat.max 1 (length (m_elements r)))%nat with (length T) in H4 by lia. specialize (Hlo H0). lia. }
  destruct Hone as (i & x1 & P1 & -> & Hi & Hinv1 & Hbi). cbn [bind].
  destruct ((lo <=? fsum T i) && (fsum T i <=? hi)) eqn:Ev.
  - rewrite HT.
    destruct (random_second_ok fo ro row n (elements_number cs) T (skipn (length (m_elements r)) R1) (s_x s) kappa delta Hid1 Hrowb HndT (sv_mode sv) lo hi
      (length (m_elements r) - i) i x1 P1 g3) as (t & x2 & P2 & g2 & H1 & H2 & H3 & H4); [lia|lia|assumption|].
    rewrite H1. cbn [bind]. pose proof (Hsum _ _ _ H4) as Hs. destruct H4 as (Hl1 & Hl2 & Hv & Ho).
    exists t, T, row, x2, P2, R3, g2. rewrite HT. split; [reflexivity|]. rewrite <- HT.
    split; [assumption|]. split; [assumption|]. split; [assumption|]. split; [assumption|]. split; [assumption|]. split; [destruct Hbi as [Hbi|[-> Hbi]]; [left; lia|]; change (fsum T 0) with 0 in Ev; lia|].
    split; [intros v Hv'; apply Ho, Hcols, Hv'|]. split; assumption.
  - assert (Hbad : i = 0%nat /\ hi < 0) by (destruct Hbi as [Hbi|Hbi]; [lia|assumption]). destruct Hbad as [-> Hneg].
    rewrite HT.
    destruct (random_rest_ok fo row n (elements_number cs) T (skipn (length (m_elements r)) R1) (s_x s) kappa delta Hid1 Hrowb HndT 0%nat
      (length (m_elements r) - 0) 0%nat x1 P1) as (x2 & P2 & H1 & H4); [lia|lia| |].
    { eapply inv_ext; [|exact Hinv1]. intros j Hj. lia. }
    rewrite H1. cbn [bind]. pose proof (Hsum _ _ _ H4) as Hs. destruct H4 as (Hl1 & Hl2 & Hv & Ho).
    exists 0%nat, T, row, x2, P2, R3, g3. rewrite HT. split; [reflexivity|]. rewrite <- HT.
    split; [assumption|]. split; [assumption|]. split; [assumption|]. split; [lia|]. split; [assumption|]. split; [auto|].
    split; [intros v Hv'; apply Ho, Hcols, Hv'|]. split; assumption.
Qed.

Lemma random_update_ok kappa delta theta k r s : nth_error cs k = Some r -> sized cs n s ->
  0 <= m_max r -> m_min r <= Z.max 0 (coefficient_sum r) ->
  exists s', random_update_row fo ro std_sort sv kappa delta theta k s = Some (s', false) /\
    sized cs n s' /\ row_satisfied (s_x s') r /\
    (forall v, ~ In v (map f_var (m_elements r)) -> nth_error (s_x s') v = nth_error (s_x s) v).
Proof.
  intros Hk Hs Hmax Hmin. destruct (bounds_at fo S_random cs n c mode after x0 g0 sv s0 Hmk k r Hk) as (lo & hi & Hb & Hc).
  destruct (ctor_row_facts S_random r lo hi ltac:(discriminate) Hc) as [Hf Hbs].
  assert (Hcn : 0 <= count_neg (m_elements r)) by (unfold count_neg; lia).
  assert (Hcp : 0 <= count_pos (m_elements r)) by (unfold count_pos; lia).
  destruct (random_update_shape kappa delta theta k r s lo hi Hk Hs Hb Hc) as (t & T & row & x' & P' & R' & g' & -> & Hl1 & Hl2 & Hl3 & Ht & Hlhs & Hv & Ho & _); [lia|].
  assert (Hin : lo <= lhs (as_assignment x') (m_elements r) <= hi) by (rewrite Hlhs; lia).
  rewrite (is_valid_constraint_value fo S_random cs n c mode after x0 g0 sv s0 Hmk Hrows x' k r lo hi Hl1 Hk Hb). cbn [bind].
  rewrite (proj2 (Z.leb_le _ _)) by lia. rewrite (proj2 (Z.leb_le _ _)) by lia. cbn [andb].
  eexists. split; [reflexivity|]. cbn [s_x]. split; [|split].
  - destruct Hs as (_ & _ & Hpi & _). unfold sized. cbn. auto.
  - unfold row_satisfied. apply (bounds_same S_random r lo hi _ Hc). exact Hin.
  - assumption.
Qed.

Lemma random_update_negative kappa delta theta k r s : nth_error cs k = Some r -> sized cs n s -> m_max r < 0 ->
  random_update_row fo ro std_sort sv kappa delta theta k s = None.
Proof.
  intros Hk Hs Hmax. destruct (bounds_at fo S_random cs n c mode after x0 g0 sv s0 Hmk k r Hk) as (lo & hi & Hb & Hc).
  destruct (ctor_row_facts S_random r lo hi ltac:(discriminate) Hc) as [Hf Hbs].
  assert (Hhi : hi < 0) by lia.
  destruct (random_update_shape kappa delta theta k r s lo hi Hk Hs Hb Hc) as (t & T & row & x' & P' & R' & g' & -> & Hl1 & Hl2 & Hl3 & Ht & Hlhs & Hv & Ho & _); [lia|].
  rewrite (is_valid_constraint_value fo S_random cs n c mode after x0 g0 sv s0 Hmk Hrows x' k r lo hi Hl1 Hk Hb). cbn [bind].
  assert (Ht0 : t = 0%nat) by lia. subst t. change (fsum T 0) with 0 in Hlhs. rewrite Hlhs.
  rewrite (proj2 (Z.leb_gt 0 hi)) by lia. rewrite Bool.andb_false_r. reflexivity.
Qed.
End Random.
