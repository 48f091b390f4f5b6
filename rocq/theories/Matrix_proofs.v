From Coq Require Import Sorted Permutation.
From Verif Require Import Base Problem_model Matrix_model Matrix_spec.
Open Scope nat_scope.

Section Runs.
Variable key : access -> nat.
Definition kle (a b : access) : Prop := key a <= key b.
Definition cnt (k : nat) (l : list access) : nat := length (filter (fun a => Nat.eqb (key a) k) l).
Definition cnt_lt (k : nat) (l : list access) : nat := length (filter (fun a => Nat.ltb (key a) k) l).

Lemma cnt_zero k l : Forall (fun a => key a <> k) l -> cnt k l = 0.
Proof. induction 1 as [|a l H _ IH]; [reflexivity|]. unfold cnt. cbn [filter]. destruct (Nat.eqb_spec (key a) k); [contradiction|exact IH]. Qed.

Lemma count_runs_ok l : forall cur nb init, StronglySorted kle l -> Forall (fun a => cur <= key a) l ->
  cur < length init -> Forall (fun a => key a < length init) l ->
  exists out, count_runs key l cur nb init = Some out /\ length out = length init /\
    forall k, nth_error out k = if Nat.eqb k cur then Some (nb + cnt k l)
                                else if existsb (fun a => Nat.eqb (key a) k) l then Some (cnt k l) else nth_error init k.
Proof.
  induction l as [|a l IH]; intros cur nb init Hs Hc Hcur Hk; cbn [count_runs].
  - destruct (list_upd_some init cur nb Hcur) as [out Ho]. exists out. split; [assumption|].
    split; [eapply list_upd_length; eassumption|]. intros k. rewrite (list_upd_nth _ _ _ _ _ Ho). cbn [existsb].
    destruct (Nat.eqb k cur); [unfold cnt; cbn; f_equal; lia|reflexivity].
  - inversion Hs as [|? ? Hs' Ha]; subst. inversion Hc as [|? ? Hca Hc']; subst. inversion Hk as [|? ? Hka Hk']; subst.
    destruct (Nat.eqb_spec cur (key a)) as [E|E].
    + destruct (IH cur (S nb) init Hs' Hc' Hcur Hk') as (out & Ho & Hl & Hn). exists out. split; [assumption|]. split; [assumption|].
      intros k. rewrite Hn. unfold cnt. cbn [filter existsb]. rewrite <- E.
      destruct (Nat.eqb_spec k cur) as [->|Hkc].
      * rewrite Nat.eqb_refl. cbn [length]. f_equal. lia.
      * destruct (Nat.eqb_spec cur k); [lia|]. reflexivity.
    + destruct (list_upd_some init cur nb Hcur) as [init' Hi]. rewrite Hi. cbn [bind].
      pose proof (list_upd_length _ _ _ _ Hi) as Hl'.
      destruct (IH (key a) 1 init' Hs' ltac:(exact Ha) ltac:(lia) ltac:(rewrite Hl'; exact Hk')) as (out & Ho & Hl & Hn).
      exists out. split; [assumption|]. split; [lia|]. intros k. rewrite Hn. unfold cnt. cbn [filter existsb].
      destruct (Nat.eqb_spec k (key a)) as [Ek|Ek].
      * rewrite Ek, Nat.eqb_refl. destruct (Nat.eqb_spec (key a) cur); [lia|]. cbn [orb length]. reflexivity.
      * destruct (Nat.eqb_spec (key a) k); [lia|]. cbn [orb]. rewrite (list_upd_nth _ _ _ _ _ Hi).
        destruct (Nat.eqb_spec k cur) as [->|]; [|reflexivity].
        assert (Hz : Forall (fun b => key b <> cur) l).
        { eapply Forall_impl; [|exact Ha]. intros b Hb. unfold kle in Hb. lia. }
        replace (existsb (fun b => Nat.eqb (key b) cur) l) with false.
        { rewrite <- (Nat.add_0_r nb) at 1. f_equal. f_equal. symmetry. exact (cnt_zero cur l Hz). }
        symmetry. apply Bool.not_true_is_false. intros G. apply existsb_exists in G. destruct G as (b & Hb & He).
        rewrite Forall_forall in Hz. apply (Hz b Hb). apply Nat.eqb_eq. assumption.
Qed.

Lemma count_runs_cnt l a0 n : StronglySorted kle l -> nth_error l 0 = Some a0 -> Forall (fun a => key a < n) l ->
  exists out, count_runs key l (key a0) 0 (repeat 0 n) = Some out /\ out = map (fun k => cnt k l) (seq 0 n).
Proof.
  intros Hs H0 Hk. destruct l as [|a l]; [discriminate|]. cbn in H0. inversion H0; subst a0.
  assert (Hc : Forall (fun b => key a <= key b) (a :: l)).
  { constructor; [lia|]. inversion Hs; subst. assumption. }
  destruct (count_runs_ok (a :: l) (key a) 0 (repeat 0 n) Hs Hc) as (out & Ho & Hl & Hn).
  - rewrite repeat_length. inversion Hk; assumption.
  - rewrite repeat_length. assumption.
  - exists out. split; [assumption|]. apply nth_error_ext. intros k. rewrite Hn, nth_error_map.
    rewrite repeat_length in Hl.
    assert (Hseq : nth_error (seq 0 n) k = if Nat.ltb k n then Some k else None).
    { destruct (Nat.ltb_spec k n); [|apply nth_error_None; rewrite seq_length; lia].
      rewrite (nth_error_nth' _ 0) by (rewrite seq_length; lia). rewrite seq_nth by lia. reflexivity. }
    rewrite Hseq. rewrite nth_error_repeat.
    destruct (Nat.eqb_spec k (key a)) as [->|Hka].
    + assert (key a < n) by (inversion Hk; assumption). destruct (Nat.ltb_spec (key a) n); [|lia]. reflexivity.
    + destruct (existsb (fun b => Nat.eqb (key b) k) (a :: l)) eqn:E.
      * apply existsb_exists in E. destruct E as (b & Hb & He). apply Nat.eqb_eq in He. subst k.
        rewrite Forall_forall in Hk. specialize (Hk b Hb). destruct (Nat.ltb_spec (key b) n); [|lia]. reflexivity.
      * destruct (Nat.ltb_spec k n); [|reflexivity]. cbn [option_map]. f_equal. symmetry. apply cnt_zero.
        apply Forall_forall. intros b Hb He. assert (existsb (fun b => Nat.eqb (key b) k) (a :: l) = true) by (apply existsb_exists; exists b; split; [assumption|apply Nat.eqb_eq; assumption]). congruence.
Qed.

Lemma cnt_lt_succ k l : cnt_lt (S k) l = cnt_lt k l + cnt k l.
Proof.
  unfold cnt_lt, cnt. induction l as [|a l IH]; [reflexivity|]. cbn [filter].
  destruct (Nat.ltb_spec (key a) (S k)), (Nat.ltb_spec (key a) k), (Nat.eqb_spec (key a) k); cbn [length]; try lia.
Qed.
Lemma prefix_sums_nth f : forall n s i k, k <= n ->
  nth_error (prefix_sums s (map f (seq i n))) k = Some (s + list_sum (map f (seq i k))).
Proof.
  induction n as [|n IH]; intros s i k Hk.
  - replace k with 0 by lia. cbn. f_equal. lia.
  - cbn [seq map prefix_sums]. destruct k as [|k]; cbn [nth_error seq map list_sum fold_right]; [f_equal; unfold list_sum; cbn; lia|].
    rewrite IH by lia. f_equal. unfold list_sum. cbn [fold_right]. lia.
Qed.
Lemma prefix_sums_length l : forall s, length (prefix_sums s l) = S (length l).
Proof. induction l as [|a l IH]; intros s; cbn; [reflexivity|]. rewrite IH. reflexivity. Qed.
Lemma sum_cnt l k : list_sum (map (fun k => cnt k l) (seq 0 k)) = cnt_lt k l.
Proof.
  induction k as [|k IH].
  - cbn. unfold cnt_lt. induction l as [|a l IH]; [reflexivity|]. cbn [filter]. destruct (Nat.ltb_spec (key a) 0); [lia|exact IH].
  - rewrite seq_S, map_app, list_sum_app, IH. cbn. rewrite cnt_lt_succ. lia.
Qed.

(** In a list sorted by key, the elements with key [k] are contiguous. *)
Lemma sorted_slice l k : StronglySorted kle l ->
  slice l (cnt_lt k l) (cnt_lt k l + cnt k l) = filter (fun a => Nat.eqb (key a) k) l.
Proof.
  intros Hs. unfold slice. replace (cnt_lt k l + cnt k l - cnt_lt k l) with (cnt k l) by lia.
  induction Hs as [|a l Hs IH Ha]; [reflexivity|]. unfold cnt_lt, cnt in *. cbn [filter].
  destruct (Nat.ltb_spec (key a) k) as [H1|H1].
  - destruct (Nat.eqb_spec (key a) k); [lia|]. cbn [length skipn]. exact IH.
  - assert (Hz : filter (fun b => Nat.ltb (key b) k) l = []).
    { clear -Ha H1. induction Ha as [|b l Hb _ IH]; [reflexivity|]. cbn [filter]. unfold kle in Hb. destruct (Nat.ltb_spec (key b) k); [lia|exact IH]. }
    rewrite Hz in *. cbn [length skipn] in *. destruct (Nat.eqb_spec (key a) k) as [E|E].
    + cbn [length firstn]. f_equal. exact IH.
    + assert (Hn : filter (fun b => Nat.eqb (key b) k) l = []).
      { clear -Ha H1 E. induction Ha as [|b l Hb _ IH]; [reflexivity|]. cbn [filter]. unfold kle in Hb. destruct (Nat.eqb_spec (key b) k); [lia|exact IH]. }
      rewrite Hn. reflexivity.
Qed.
End Runs.

(** ** The stable sort *)
Lemma insert_col_sorted a l : StronglySorted (kle ac_col) l -> StronglySorted (kle ac_col) (insert_col a l).
Proof.
  induction 1 as [|b l Hs IH Hb]; cbn [insert_col]; [repeat constructor|].
  destruct (Nat.leb_spec (ac_col a) (ac_col b)) as [H|H].
  - constructor; [constructor; assumption|]. constructor; [exact H|]. eapply Forall_impl; [|exact Hb]. unfold kle. cbn. intros; lia.
  - constructor; [exact IH|]. apply Forall_forall. intros c Hc.
    assert (Hin : In c (a :: l)).
    { clear -Hc. induction l as [|d l IHl]; cbn in *; [assumption|]. destruct (Nat.leb _ _); cbn in *; [assumption|]. tauto. }
    destruct Hin as [<-|Hin]; [unfold kle; lia|]. rewrite Forall_forall in Hb. apply Hb. assumption.
Qed.
Lemma sort_col_sorted l : StronglySorted (kle ac_col) (sort_col l).
Proof. induction l as [|a l IH]; cbn; [constructor|apply insert_col_sorted; exact IH]. Qed.
Lemma insert_col_filter v a l : StronglySorted (kle ac_col) l ->
  filter (fun b => Nat.eqb (ac_col b) v) (insert_col a l) = filter (fun b => Nat.eqb (ac_col b) v) (a :: l).
Proof.
  induction 1 as [|b l Hs IH Hb]; [reflexivity|]. cbn [insert_col]. destruct (Nat.leb_spec (ac_col a) (ac_col b)) as [H|H]; [reflexivity|].
  cbn [filter] in *. rewrite IH. destruct (Nat.eqb_spec (ac_col a) v), (Nat.eqb_spec (ac_col b) v); try reflexivity. lia.
Qed.
Lemma sort_col_filter v l : filter (fun b => Nat.eqb (ac_col b) v) (sort_col l) = filter (fun b => Nat.eqb (ac_col b) v) l.
Proof.
  induction l as [|a l IH]; [reflexivity|]. cbn [sort_col fold_right]. fold (sort_col l).
  rewrite insert_col_filter by apply sort_col_sorted. cbn [filter]. rewrite IH. reflexivity.
Qed.
Lemma insert_col_perm a l : Permutation (insert_col a l) (a :: l).
Proof.
  induction l as [|b l IH]; cbn; [reflexivity|]. destruct (Nat.leb _ _); [reflexivity|]. rewrite IH. apply perm_swap.
Qed.
Lemma sort_col_perm l : Permutation (sort_col l) l.
Proof. induction l as [|a l IH]; cbn; [reflexivity|]. rewrite insert_col_perm. constructor. exact IH. Qed.

(** ** The accessors *)
Lemma accessors_row_in i l : forall id a, In a (accessors_row i l id) <->
  exists j e, nth_error l j = Some e /\ a = mk_access i (f_var e) (id + j).
Proof.
  induction l as [|e l IH]; intros id a; cbn [accessors_row]; [split; [intros []|intros ([|j] & e & H & _); discriminate]|].
  cbn [In]. rewrite IH. split.
  - intros [<-|(j & e' & H & ->)]; [exists 0, e; split; [reflexivity|f_equal; lia]|exists (S j), e'; split; [exact H|f_equal; lia]].
  - intros ([|j] & e' & H & ->); [left; inversion H; subst; f_equal; lia|right; exists j, e'; split; [exact H|f_equal; lia]].
Qed.
Lemma make_accessors_in csts : forall i id a, In a (make_accessors i csts id) <->
  exists k j c e, nth_error csts k = Some c /\ nth_error c j = Some e /\
    a = mk_access (i + k) (f_var e) (id + elements_before csts k + j).
Proof.
  induction csts as [|c csts IH]; intros i id a; cbn [make_accessors].
  - split; [intros []|intros ([|k] & j & c & e & H & _); discriminate].
  - rewrite in_app_iff, accessors_row_in, IH. split.
    + intros [(j & e & H & ->)|(k & j & c' & e & H1 & H2 & ->)].
      * exists 0, j, c, e. split; [reflexivity|]. split; [assumption|]. unfold elements_before. cbn. f_equal; lia.
      * exists (S k), j, c', e. split; [exact H1|]. split; [assumption|]. unfold elements_before. cbn [firstn fold_right]. f_equal; lia.
    + intros ([|k] & j & c' & e & H1 & H2 & ->).
      * left. inversion H1; subst c'. exists j, e. split; [assumption|]. unfold elements_before. cbn. f_equal; lia.
      * right. exists k, j, c', e. split; [exact H1|]. split; [assumption|]. unfold elements_before. cbn [firstn fold_right]. f_equal; lia.
Qed.
Lemma accessors_row_filter_same i l id : filter (fun a => Nat.eqb (ac_row a) i) (accessors_row i l id) = accessors_row i l id.
Proof. revert id; induction l as [|e l IH]; intros id; cbn; [reflexivity|]. rewrite Nat.eqb_refl, IH. reflexivity. Qed.
Lemma accessors_row_filter_other i k l id : i <> k -> filter (fun a => Nat.eqb (ac_row a) k) (accessors_row i l id) = [].
Proof. intros H. revert id; induction l as [|e l IH]; intros id; cbn; [reflexivity|]. destruct (Nat.eqb_spec i k); [contradiction|apply IH]. Qed.
Lemma make_accessors_filter_row csts : forall i id k c, nth_error csts k = Some c ->
  filter (fun a => Nat.eqb (ac_row a) (i + k)) (make_accessors i csts id) = accessors_row (i + k) c (id + elements_before csts k).
Proof.
  induction csts as [|c0 csts IH]; intros i id k c H; [destruct k; discriminate|]. cbn [make_accessors]. rewrite filter_app.
  destruct k as [|k].
  - inversion H; subst c0. rewrite Nat.add_0_r, accessors_row_filter_same.
    replace (filter _ (make_accessors (S i) csts (id + length c))) with (@nil access).
    + rewrite app_nil_r. f_equal. unfold elements_before. cbn. lia.
    + symmetry. assert (Hz : forall a, In a (make_accessors (S i) csts (id + length c)) -> ac_row a <> i).
      { intros a Ha. apply make_accessors_in in Ha. destruct Ha as (k & j & c' & e & _ & _ & ->). cbn. lia. }
      induction (make_accessors (S i) csts (id + length c)) as [|a l IHl]; [reflexivity|]. cbn [filter].
      destruct (Nat.eqb_spec (ac_row a) i); [exfalso; apply (Hz a); [left; reflexivity|assumption]|]. apply IHl. intros b Hb. apply Hz. right. assumption.
  - rewrite accessors_row_filter_other by lia. cbn [app]. replace (i + S k) with (S i + k) by lia. rewrite (IH _ _ _ _ H).
    f_equal. unfold elements_before. cbn [firstn fold_right]. lia.
Qed.
Lemma make_accessors_sorted csts : forall i id, StronglySorted (kle ac_row) (make_accessors i csts id).
Proof.
  induction csts as [|c csts IH]; intros i id; cbn [make_accessors]; [constructor|].
  assert (Hrest : Forall (fun a => i <= ac_row a) (make_accessors (S i) csts (id + length c))).
  { apply Forall_forall. intros a Ha. apply make_accessors_in in Ha. destruct Ha as (k & j & c' & e & _ & _ & ->). cbn. lia. }
  specialize (IH (S i) (id + length c)).
  revert Hrest IH. generalize (make_accessors (S i) csts (id + length c)). intros rest Hrest Hr. revert id.
  induction c as [|e c IHc]; intros id; cbn [accessors_row app]; [assumption|].
  constructor; [apply IHc|]. apply Forall_app. split; [|exact Hrest].
  apply Forall_forall. intros a Ha. apply accessors_row_in in Ha. destruct Ha as (j & e' & _ & ->). unfold kle. cbn. lia.
Qed.
Lemma accessors_row_length i l id : length (accessors_row i l id) = length l.
Proof. revert id; induction l; intros; cbn; auto. Qed.
Lemma cnt_row csts k c : nth_error csts k = Some c -> cnt ac_row k (make_accessors 0 csts 0) = length c.
Proof.
  intros H. unfold cnt. pose proof (make_accessors_filter_row csts 0 0 k c H) as Hf. cbn [Nat.add] in Hf. rewrite Hf. apply accessors_row_length.
Qed.
Lemma cnt_lt_row csts : forall k, k <= length csts -> cnt_lt ac_row k (make_accessors 0 csts 0) = elements_before csts k.
Proof.
  induction k as [|k IH]; intros Hk.
  - unfold cnt_lt, elements_before. cbn [firstn fold_right]. induction (make_accessors 0 csts 0) as [|a l IHl]; [reflexivity|]. cbn [filter].
    destruct (Nat.ltb_spec (ac_row a) 0); [lia|exact IHl].
  - rewrite cnt_lt_succ, IH by lia. destruct (nth_error csts k) as [c|] eqn:E; [|apply nth_error_None in E; lia].
    rewrite (cnt_row _ _ _ E). unfold elements_before. clear -E. revert k E. induction csts as [|d csts IHc]; intros k E; [destruct k; discriminate|].
    destruct k as [|k]; cbn in *; [inversion E; subst; lia|]. specialize (IHc k E). destruct csts; cbn in *; lia.
Qed.

Definition elems (csts : list (list felem)) := make_accessors 0 csts 0.

(** ** The matrix *)
Section Mx.
Variable csts : list (list felem).
Variable cols : nat.
Hypothesis Hcols : forall c e, In c csts -> In e c -> f_var e < cols.
Hypothesis Hsome : exists c, In c csts /\ c <> [].

Lemma acc_bounds : Forall (fun a => ac_row a < length csts /\ ac_col a < cols) (make_accessors 0 csts 0).
Proof.
  apply Forall_forall. intros a Ha. apply make_accessors_in in Ha. destruct Ha as (k & j & c & e & H1 & H2 & ->). cbn [ac_row ac_col]. split.
  - apply nth_error_Some. cbn. congruence.
  - apply (Hcols c e); eapply nth_error_In; eassumption.
Qed.
Lemma acc_nonempty : exists a0, nth_error (make_accessors 0 csts 0) 0 = Some a0.
Proof.
  destruct Hsome as (c & Hc & Hne). destruct c as [|e c]; [contradiction|]. apply In_nth_error in Hc. destruct Hc as [k Hk].
  assert (Hin : In (mk_access (0 + k) (f_var e) (0 + elements_before csts k + 0)) (make_accessors 0 csts 0)).
  { apply make_accessors_in. exists k, 0, (e :: c), e. repeat split; assumption. }
  destruct (make_accessors 0 csts 0) as [|a0 l]; [destruct Hin|]. exists a0. reflexivity.
Qed.
Lemma combine_check {A} f g (l : list A) (h : list nat) : h = map f (seq 0 (length l)) ->
  (forall k c, nth_error l k = Some c -> f k = g c) ->
  forallb (fun p : nat * A => Nat.eqb (fst p) (g (snd p))) (combine h l) = true.
Proof.
  intros -> Hf. apply forallb_forall. intros [n c] Hin. apply In_nth_error in Hin. destruct Hin as [k Hk].
  cbn [fst snd]. apply Nat.eqb_eq.
  assert (Hc : forall (a : list nat) (b : list A) i, nth_error (combine a b) i = match nth_error a i, nth_error b i with Some x, Some y => Some (x, y) | _, _ => None end).
  { clear. induction a as [|x a IH]; intros [|y b] [|i]; cbn; try reflexivity. destruct (nth_error a i); reflexivity. apply IH. }
  rewrite Hc, nth_error_map in Hk. destruct (nth_error (seq 0 (length l)) k) as [q|] eqn:E; [|discriminate].
  cbn [option_map] in Hk. destruct (nth_error l k) as [c'|] eqn:E2; [|discriminate]. inversion Hk; subst.
  assert (q = k). { assert (k < length l) by (apply nth_error_Some; congruence). rewrite (nth_error_nth' _ 0) in E by (rewrite seq_length; lia). rewrite seq_nth in E by lia. inversion E. reflexivity. }
  subst q. apply Hf. assumption.
Qed.
Lemma make_matrix_ok : exists m, make_matrix csts cols = Some m /\
  mx_rows_access m = prefix_sums 0 (map (fun k => cnt ac_row k (make_accessors 0 csts 0)) (seq 0 (length csts))) /\
  mx_cols_access m = prefix_sums 0 (map (fun k => cnt ac_col k (sort_col (make_accessors 0 csts 0))) (seq 0 cols)) /\
  mx_rows_values m = map (fun a => (ac_id a, ac_col a)) (make_accessors 0 csts 0) /\
  mx_cols_values m = map (fun a => (ac_id a, ac_row a)) (sort_col (make_accessors 0 csts 0)).
Proof.
  destruct acc_nonempty as [a0 H0]. unfold make_matrix. rewrite H0. cbn [bind].
  destruct (count_runs_cnt ac_row (make_accessors 0 csts 0) a0 (length csts) (make_accessors_sorted csts 0 0) H0) as (rinit & Hr & Er).
  { eapply Forall_impl; [|exact acc_bounds]. intros a [H _]. exact H. }
  rewrite Hr. cbn [bind]. rewrite (combine_check (fun k => cnt ac_row k (make_accessors 0 csts 0)) (@length felem) csts rinit Er).
  2: { intros k c Hk. apply cnt_row. assumption. }
  assert (Hb : exists b0, nth_error (sort_col (make_accessors 0 csts 0)) 0 = Some b0).
  { pose proof (Permutation_length (sort_col_perm (make_accessors 0 csts 0))) as Hl.
    destruct (sort_col (make_accessors 0 csts 0)) as [|b l]; [|exists b; reflexivity].
    destruct (make_accessors 0 csts 0); [discriminate|discriminate Hl]. }
  destruct Hb as [b0 Hb0]. rewrite Hb0. cbn [bind].
  destruct (count_runs_cnt ac_col (sort_col (make_accessors 0 csts 0)) b0 cols (sort_col_sorted _) Hb0) as (cinit & Hc & Ec).
  { eapply Permutation_Forall; [apply Permutation_sym, sort_col_perm|]. eapply Forall_impl; [|exact acc_bounds]. intros a [_ H]. exact H. }
  rewrite Hc. cbn [bind]. eexists. split; [reflexivity|]. subst. repeat split.
Qed.

Lemma slice_map {A B} (f : A -> B) l b e : slice (map f l) b e = map f (slice l b e).
Proof. unfold slice. rewrite skipn_map, firstn_map. reflexivity. Qed.

Lemma mx_row_ok m k c : make_matrix csts cols = Some m -> nth_error csts k = Some c -> 0 < cols ->
  mx_row m k = Some (map (fun a => (ac_id a, ac_col a)) (accessors_row k c (elements_before csts k))).
Proof.
  intros Hm Hk Hc0. destruct make_matrix_ok as (m' & Hm' & Hra & Hca & Hrv & Hcv). rewrite Hm in Hm'. inversion Hm'; subst m'.
  assert (Hkl : k < length csts) by (apply nth_error_Some; congruence).
  unfold mx_row, is_valid_index. rewrite Hra, Hca, !prefix_sums_length, !map_length, !seq_length.
  rewrite (proj2 (Nat.ltb_lt 0 _)) by lia. rewrite (proj2 (Nat.ltb_lt k _)) by lia. cbn [andb].
  rewrite !prefix_sums_nth by lia. cbn [bind]. rewrite !Nat.add_0_l, !sum_cnt, cnt_lt_succ, Hrv, slice_map.
  rewrite sorted_slice by apply make_accessors_sorted.
  pose proof (make_accessors_filter_row csts 0 0 k c Hk) as Hf. cbn [Nat.add] in Hf. rewrite Hf. reflexivity.
Qed.
Lemma mx_column_ok m v : make_matrix csts cols = Some m -> v < cols ->
  mx_column m v = Some (map (fun a => (ac_id a, ac_row a)) (filter (fun a => Nat.eqb (ac_col a) v) (make_accessors 0 csts 0))).
Proof.
  intros Hm Hv. destruct make_matrix_ok as (m' & Hm' & Hra & Hca & Hrv & Hcv). rewrite Hm in Hm'. inversion Hm'; subst m'.
  assert (Hr : 0 < length csts) by (destruct Hsome as (c & Hc & _); destruct csts; [destruct Hc|cbn; lia]).
  unfold mx_column, is_valid_index. rewrite Hra, Hca, !prefix_sums_length, !map_length, !seq_length.
  rewrite (proj2 (Nat.ltb_lt v _)) by lia. rewrite (proj2 (Nat.ltb_lt 0 _)) by lia. cbn [andb].
  rewrite !prefix_sums_nth by lia. cbn [bind]. rewrite !Nat.add_0_l, !sum_cnt, cnt_lt_succ, Hcv, slice_map.
  rewrite sorted_slice by apply sort_col_sorted. rewrite sort_col_filter. reflexivity.
Qed.
End Mx.

Lemma rows_increase_filter (p : access -> bool) l : StronglySorted (kle ac_row) l ->
  rows_increase (map (fun a => (ac_id a, ac_row a)) (filter p l)).
Proof.
  intros Hs. assert (Hf : StronglySorted (kle ac_row) (filter p l)).
  { induction Hs as [|a l Hs IH Ha]; cbn [filter]; [constructor|]. destruct (p a); [|assumption]. constructor; [assumption|].
    apply Forall_forall. intros b Hb. apply filter_In in Hb. rewrite Forall_forall in Ha. apply Ha. tauto. }
  induction Hf as [|a l' Hs' IH Ha]; intros i u v Hu Hv; [destruct i; discriminate|].
  cbn [map] in *. destruct i as [|i]; [|exact (IH i u v Hu Hv)].
  inversion Hu; subst u. destruct l' as [|b l']; [discriminate|]. inversion Hv; subst v. inversion Ha; subst. assumption.
Qed.
Lemma make_accessors_ids csts : forall i id, map ac_id (make_accessors i csts id) = seq id (length (make_accessors i csts id)).
Proof.
  induction csts as [|c csts IH]; intros i id; cbn [make_accessors]; [reflexivity|].
  rewrite map_app, app_length, seq_app, IH, accessors_row_length. f_equal.
  clear. revert id. induction c as [|e c IHc]; intros id; cbn; [reflexivity|]. f_equal. apply IHc.
Qed.
