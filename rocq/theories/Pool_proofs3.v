(** Proofs about the optimizer, continued: the ranking at the end of a run and the seeds. *)
From Coq Require Import Permutation Sorted.
From Verif Require Import Base Problem_model Problem_spec Merged_model Merged_spec Classify_model Matrix_model Rows_model Rows_spec Rows_proofs
  Validate_model Solver_model Solver_spec Solver_proofs Pool_model Pool_spec Pool_proofs Pool_proofs2.
Open Scope Z_scope.

Lemma pool_lt_order mode data : (forall a, pool_lt mode data a a = false) /\
  (forall a b c, pool_lt mode data a b = true -> pool_lt mode data b c = true -> pool_lt mode data a c = true) /\
  (forall a b c, pool_lt mode data a b = false -> pool_lt mode data b c = false -> pool_lt mode data a c = false).
Proof.
  unfold pool_lt. split; [|split]; intros.
  - apply entry_lt_false, not_better_refl.
  - apply entry_lt_iff. apply entry_lt_iff in H, H0. revert H H0. unfold strictly_better. destruct mode; lia.
  - apply entry_lt_false. apply entry_lt_false in H, H0. eapply not_better_trans; eassumption.
Qed.
Section Ranking.
Context {F G : Type} (fo : fops F) (ro : rops G)
        (std_sort : forall A : Type, (A -> A -> bool) -> list A -> list A) (hash : list bool -> Z).
Hypothesis Hperm : permutes std_sort.
Hypothesis Hsort : sorts std_sort.
Variables (mode : objective_type) (obj : objective) (cs : list merged) (op : oparams F) (size : nat).
Local Notation step := (step fo ro std_sort hash mode obj op).

(** The entries in the order of the ranking. *)
Definition rank_sorted (p : pool) : Prop := StronglySorted (fun i j => ~ strictly_better mode (nth j (pl_data p) entry0) (nth i (pl_data p) entry0)) (pl_indices p).
Definition unsettled (w : worker F G) : Prop := match wk_pc w with W_write (S _) _ _ _ | W_sort _ => True | _ => False end.
Definition settles (s : sys F G) : Prop := rank_sorted (sy_pool s) \/ exists w, In w (sy_workers s) /\ unsettled w.

Lemma pool_sort_sorted p p' : pool_sort std_sort mode p = Some p' -> rank_sorted p'.
Proof.
  intros Hs. apply pool_sort_fields in Hs. destruct Hs as (E1 & _ & _ & E2 & _). unfold rank_sorted. rewrite E1, E2.
  destruct (pool_lt_order mode (pl_data p)) as (W1 & W2 & W3). pose proof (Hsort _ (pool_lt mode (pl_data p)) (pl_indices p) W1 W2 W3) as H.
  clear E2. induction H as [|i l H IH Ha]; [constructor|]. constructor; [exact IH|]. eapply Forall_impl; [|exact Ha]. intros j Hj. apply entry_lt_false. exact Hj.
Qed.
Lemma in_upd_other (l l' : list (worker F G)) i w w' u : nth_error l i = Some w -> list_upd l i w' = Some l' -> In u l -> u <> w -> In u l'.
Proof.
  intros Hi Hl Hu Hne. apply In_nth_error in Hu. destruct Hu as [j Hj]. apply (nth_error_In _ j). rewrite (list_upd_nth _ _ _ _ _ Hl).
  destruct (Nat.eqb_spec j i) as [E|E]; [|assumption]. congruence.
Qed.
Lemma in_upd_new (l l' : list (worker F G)) i w' : list_upd l i w' = Some l' -> In w' l'.
Proof. intros Hl. apply (nth_error_In _ i). rewrite (list_upd_nth _ _ _ _ _ Hl), Nat.eqb_refl. reflexivity. Qed.
Lemma keys_sorted p p' : pl_indices p' = pl_indices p -> well_formed size p ->
  (forall id e, nth_error (pl_data p) id = Some e -> exists e', nth_error (pl_data p') id = Some e' /\ e_remaining e' = e_remaining e /\ e_value e' = e_value e) ->
  rank_sorted p -> rank_sorted p'.
Proof.
  intros E [L P] K. unfold rank_sorted. rewrite E.
  assert (Hall : forall i, In i (pl_indices p) -> e_remaining (nth i (pl_data p') entry0) = e_remaining (nth i (pl_data p) entry0) /\ e_value (nth i (pl_data p') entry0) = e_value (nth i (pl_data p) entry0)).
  { intros i Hi. apply (Permutation_in _ P), in_seq in Hi. destruct (nth_error (pl_data p) i) as [e|] eqn:Ee; [|apply nth_error_None in Ee; lia].
    destruct (K _ _ Ee) as (e' & He' & R & V). rewrite (nth_error_nth _ _ _ Ee), (nth_error_nth _ _ _ He'). auto. }
  clear E P L K. induction (pl_indices p) as [|i l IH]; intros H; [constructor|]. apply StronglySorted_inv in H. destruct H as [H1 H2].
  constructor; [apply IH; [intros; apply Hall; right; assumption|assumption]|]. rewrite Forall_forall in *. intros j Hj. specialize (H2 j Hj).
  destruct (Hall i (or_introl eq_refl)) as [R1 V1]. destruct (Hall j (or_intror Hj)) as [R2 V2]. revert H2. unfold strictly_better. rewrite R1, V1, R2, V2. tauto.
Qed.
Lemma step_settles s s' : step s s' -> well_formed size (sy_pool s) -> settles s -> settles s'.
Proof.
  intros H Hwf Hs. destruct H as [s i w p' w' l Hi Hst Hl]. unfold settles in *. cbn [sy_pool sy_workers].
  assert (Hkeep : rank_sorted p' \/ unsettled w' -> (rank_sorted p' \/ exists u, In u l /\ unsettled u)).
  { intros [?|?]; [auto|]. right. exists w'. split; [eapply in_upd_new; eassumption|assumption]. }
  remember (sy_pool s) as q eqn:Eq0.
  assert (Hmove : (rank_sorted q -> rank_sorted p') -> ~ unsettled w -> rank_sorted p' \/ exists u, In u l /\ unsettled u).
  { intros Hr Hu. destruct Hs as [Hs|(u & Hin & Hun)]; [auto|]. right. exists u. split; [|assumption]. eapply in_upd_other; try eassumption. intros ->. contradiction. }
  destruct Hst as [p w E|p w p' a kappa x fuel evs od st E Hre Hro|p w E|p w ev rest E Hc|p w ev rest d new E Hc He
    |p w new rest r id E Hr Hid|p w k id new rest data E Hm|p w rest p' E Hf Hso].
  - apply Hmove; [auto|]. unfold unsettled. rewrite E. auto.
  - apply Hmove; [|unfold unsettled; rewrite E; auto]. apply reinit_keys in Hre. destruct Hre as (E1 & _ & K2). apply keys_sorted; assumption.
  - apply Hmove; [auto|]. unfold unsettled. rewrite E. auto.
  - apply Hmove; [auto|]. unfold unsettled. rewrite E. auto.
  - apply Hmove; [auto|]. unfold unsettled. rewrite E. auto.
  - apply Hmove; [auto|]. unfold unsettled. rewrite E. auto.
  - apply Hkeep. right. unfold unsettled, with_pc. cbn [wk_pc]. destruct (Nat.ltb k 5); exact I.
  - apply Hkeep. left. eapply pool_sort_sorted; eassumption.
Qed.
Lemma end_sorted bastert xs p0 ws s : make_pool std_sort hash mode obj cs bastert xs = Some p0 -> length xs = size ->
  steps step any (mk_sys p0 ws) s -> returned s -> well_formed size (sy_pool s) /\ rank_sorted (sy_pool s).
Proof.
  intros Hp Hl Hst Hret.
  assert (HI : well_formed size (sy_pool s) /\ settles s).
  { apply (steps_inv _ _ (fun s => well_formed size (sy_pool s) /\ settles s) _ _ Hst).
    - intros a b [H1 H2] _ _ Hab. split; [eapply step_wf; eassumption|eapply step_settles; eassumption].
    - split; [rewrite <- Hl; eapply make_pool_wf; eassumption|]. left. unfold make_pool in Hp. destruct (initial_entries hash obj cs xs); cbn [bind] in Hp; [|discriminate]. eapply pool_sort_sorted; eassumption. }
  destruct HI as [H1 [H2|(w & Hw & Hu)]]; [auto|]. unfold unsettled in Hu. rewrite (Hret _ Hw) in Hu. destruct Hu.
Qed.

(** The entries of the ranking, as a list. *)
Definition ranking (p : pool) : list entry := map (fun i => nth i (pl_data p) entry0) (pl_indices p).
Lemma ranking_best p k e : well_formed size p -> get_best p k = Some e <-> nth_error (ranking p) k = Some e.
Proof.
  intros [L P]. unfold get_best, ranking. rewrite nth_error_map. destruct (nth_error (pl_indices p) k) as [i|] eqn:Ei; cbn; [|split; discriminate].
  apply nth_error_In, (Permutation_in _ P), in_seq in Ei. destruct (nth_error (pl_data p) i) as [a|] eqn:Ea; [|apply nth_error_None in Ea; lia].
  rewrite (nth_error_nth _ _ _ Ea). reflexivity.
Qed.
Lemma map_nth_seq {A} (d : A) (l : list A) : map (fun i => nth i l d) (seq 0 (length l)) = l.
Proof.
  induction l as [|a l IH]; [reflexivity|]. cbn [length seq map nth]. f_equal. rewrite <- seq_shift, map_map. exact IH.
Qed.
Lemma ranking_perm p : well_formed size p -> Permutation (ranking p) (pl_data p).
Proof. intros [L P]. unfold ranking. etransitivity; [apply Permutation_map, P|]. rewrite <- L, map_nth_seq. reflexivity. Qed.
Lemma ranking_sorted p : rank_sorted p -> StronglySorted (fun a b => ~ strictly_better mode b a) (ranking p).
Proof.
  unfold rank_sorted, ranking. induction (pl_indices p) as [|i l IH]; intros H; cbn; [constructor|]. apply StronglySorted_inv in H. destruct H as [H1 H2].
  constructor; [auto|]. rewrite Forall_map. exact H2.
Qed.
Lemma best_solutions_ok p n : well_formed size p -> (forall e, In e (pl_data p) -> length (e_x e) = n) -> forall k i l, best_solutions p n i k = Some l ->
  l = map (fun e => (e_x e, e_value e)) (firstn k (skipn i (ranking p))) /\ length l = k.
Proof.
  intros Hwf Hx. induction k as [|k IH]; intros i l; cbn [best_solutions]. { intros H; inversion H. auto. }
  destruct (get_best p i) as [e|] eqn:Eg; cbn [bind]; [|discriminate]. pose proof Eg as Eg'. apply (ranking_best _ _ _ Hwf) in Eg'.
  unfold convert. assert (He : length (e_x e) = n). { apply Hx. eapply Permutation_in; [apply ranking_perm; exact Hwf|]. eapply nth_error_In; eassumption. }
  destruct (Nat.leb n (length (e_x e))); cbn [bind]; [|discriminate].
  destruct (best_solutions p n (S i) k) as [l1|] eqn:E1; cbn [bind]; [|discriminate]. intros H; inversion H; subst l. destruct (IH _ _ E1) as [E2 E3]. split; [|cbn; congruence].
  assert (Hsk : skipn i (ranking p) = e :: skipn (S i) (ranking p)).
  { clear - Eg'. revert i Eg'. induction (ranking p) as [|a r IHr]; intros i; [destruct i; discriminate|]. destruct i as [|i]; cbn; [intros H; inversion H; reflexivity|]. apply IHr. }
  rewrite Hsk. cbn [firstn map]. rewrite <- E2. f_equal. rewrite <- He, firstn_all. reflexivity.
Qed.
(** get_worst: no solution of the pool is strictly worse. *)
Lemma worst_ok p w : well_formed size p -> (forall e, In e (pl_data p) -> 0 <= e_remaining e) -> rank_sorted p -> get_worst p = Some w ->
  In w (pl_data p) /\ forall e, In e (pl_data p) -> e_remaining e = 0 -> ~ strictly_better mode w e.
Proof.
  intros Hwf Hnn Hsrt. unfold get_worst. pose proof (ranking_sorted _ Hsrt) as Hr. pose proof (ranking_perm _ Hwf) as Hp. unfold ranking in *.
  assert (Hdom : forall i, In i (pl_indices p) -> nth_error (pl_data p) i = Some (nth i (pl_data p) entry0)).
  { intros i Hi. destruct Hwf as [L P]. apply (Permutation_in _ P), in_seq in Hi. destruct (nth_error (pl_data p) i) as [a|] eqn:Ea; [|apply nth_error_None in Ea; lia]. rewrite (nth_error_nth _ _ _ Ea). reflexivity. }
  destruct (pl_indices p) as [|i l]; [discriminate|]. intros H.
  assert (HH : forall l i, StronglySorted (fun a b => ~ strictly_better mode b a) (map (fun i => nth i (pl_data p) entry0) (i :: l)) ->
    (forall j, In j (i :: l) -> nth_error (pl_data p) j = Some (nth j (pl_data p) entry0)) -> worst_from (pl_data p) i l = Some w ->
    (exists j, In j (i :: l) /\ w = nth j (pl_data p) entry0) /\ forall j, In j (i :: l) -> e_remaining (nth j (pl_data p) entry0) = 0 -> ~ strictly_better mode w (nth j (pl_data p) entry0)).
  { clear - Hnn. induction l as [|k l IH]; intros i Hs Hd; cbn [worst_from].
    - rewrite (Hd i (or_introl eq_refl)). intros H; inversion H. split; [exists i; split; [left|]; reflexivity|]. intros j [<-|[]] _. apply not_better_refl.
    - rewrite (Hd k (or_intror (or_introl eq_refl))). cbn [bind]. cbn [map] in Hs. apply StronglySorted_inv in Hs. destruct Hs as [Hs1 Hs2].
      destruct (Z.eqb_spec (e_remaining (nth k (pl_data p) entry0)) 0) as [E0|E0].
      + intros H. destruct (IH k Hs1 (fun j Hj => Hd j (or_intror Hj)) H) as [(j0 & Hj0 & Ew) Hall]. split; [exists j0; split; [right|]; assumption|].
        intros j [<-|Hj] Hjr; [|apply Hall; assumption]. rewrite Forall_forall in Hs2. subst w. apply Hs2. apply (in_map (fun i => nth i (pl_data p) entry0)) in Hj0. exact Hj0.
      + intros H; inversion H. split; [exists k; split; [right; left|]; reflexivity|].
        assert (Hpos : 0 < e_remaining (nth k (pl_data p) entry0)). { pose proof (Hnn _ (nth_error_In _ _ (Hd k (or_intror (or_introl eq_refl))))). lia. }
        intros j _ Hjr. unfold strictly_better. intros [B|[B _]]; lia. }
  destruct (HH l i Hr Hdom H) as [(j & Hj & Ew) Hall]. split.
  - rewrite Ew. eapply nth_error_In. apply Hdom. assumption.
  - intros e He Her. apply (Permutation_in _ (Permutation_sym Hp)) in He. apply in_map_iff in He. destruct He as (k & <- & Hk). apply Hall; assumption.
Qed.
End Ranking.

(** ** Seeds *)
Section Seeds.
Variable draw : nat -> Z.
Lemma seed_loop_ok : forall fuel i j ret k ret' k', seed_loop draw fuel i j ret k = Finished (ret', k') -> (j < i)%nat ->
  (forall m, (j < m < i)%nat -> nth_error ret m <> nth_error ret i) ->
  length ret' = length ret /\ nth_error ret' i = nth_error ret i /\ nth_error ret' 0 = nth_error ret 0 /\ (forall m, (i < m)%nat -> nth_error ret' m = nth_error ret m) /\
  forall m, (0 < m < i)%nat -> nth_error ret' m <> nth_error ret' i.
Proof.
  induction fuel as [|fuel IH]; intros i j ret k ret' k'; cbn [seed_loop]; [discriminate|]. destruct j as [|j].
  - intros H Hj Hm. inversion H; subst. auto.
  - destruct (nth_error ret (S j)) as [a|] eqn:Ea; [|discriminate]. destruct (nth_error ret i) as [b|] eqn:Eb; [|discriminate].
    intros H Hj Hm. destruct (Z.eqb_spec a b) as [E|E].
    + destruct (list_upd ret (S j) (draw k)) as [r1|] eqn:Eu; [|discriminate].
      destruct (IH _ _ _ _ _ _ H) as (H1 & H2 & H3 & H4 & H5); [lia|intros; lia|].
      rewrite (list_upd_length _ _ _ _ Eu) in H1. rewrite (list_upd_nth _ _ _ _ _ Eu) in H2. rewrite (list_upd_nth _ _ _ _ _ Eu) in H3.
      destruct (Nat.eqb_spec i (S j)); [lia|]. cbn in H3. repeat split; try assumption; try congruence.
      intros m Hm'. rewrite H4, (list_upd_nth _ _ _ _ _ Eu) by assumption. destruct (Nat.eqb_spec m (S j)); [lia|reflexivity].
    + destruct (IH _ _ _ _ _ _ H) as (H1 & H2 & H3 & H4 & H5); [lia| |repeat split; try assumption; congruence].
      intros m Hm'. destruct (Nat.eq_dec m (S j)) as [->|]; [rewrite Ea, Eb; congruence|]. rewrite Eb. apply Hm. lia.
Qed.
Lemma seeds_from_ok fuel : forall n i ret k ret' k', seeds_from draw fuel i n ret k = Finished (ret', k') -> (0 < i)%nat -> (0 < n)%nat ->
  length ret' = length ret /\ forall m, (0 < m < i + n - 1)%nat -> nth_error ret' m <> nth_error ret' (i + n - 1).
Proof.
  induction n as [|n IH]; intros i ret k ret' k'; cbn [seeds_from]; [lia|]. destruct (list_upd ret i (draw k)) as [r1|] eqn:Eu; [|discriminate].
  destruct (seed_loop draw fuel i (i - 1) r1 (S k)) as [[r2 k2]| |] eqn:El; try discriminate. intros H Hi _.
  destruct (seed_loop_ok _ _ _ _ _ _ _ El) as (H1 & H2 & H3 & H4 & H5); [lia|intros; lia|]. pose proof (list_upd_length _ _ _ _ Eu) as Hl.
  destruct n as [|n].
  - cbn in H. inversion H; subst. split; [congruence|]. replace (i + 1 - 1)%nat with i by lia. assumption.
  - destruct (IH _ _ _ _ _ H) as [I1 I2]; [lia|lia|]. split; [congruence|]. replace (i + S (S n) - 1)%nat with (S i + S n - 1)%nat by lia. exact I2.
Qed.
Lemma generate_seed_last fuel threads l : generate_seed draw fuel threads = Finished l -> (1 < threads)%nat ->
  length l = threads /\ forall m, (0 < m < threads - 1)%nat -> nth_error l m <> nth_error l (threads - 1).
Proof.
  destruct threads as [|n]; [lia|]. unfold generate_seed. cbn [repeat list_upd]. destruct (seeds_from draw fuel 1 n _ 1) as [[r k]| |] eqn:E; try discriminate.
  intros H Hn. inversion H; subst l. destruct (seeds_from_ok _ _ _ _ _ _ _ E) as [H1 H2]; [lia|lia|]. split; [rewrite H1; cbn; rewrite repeat_length; reflexivity|].
  replace (S n - 1)%nat with (1 + n - 1)%nat by lia. exact H2.
Qed.
(** Distinct draws are kept as they are. *)
Lemma seed_loop_distinct fuel : forall i j ret k, (j <= i)%nat -> (j < fuel)%nat -> (forall m, (m <= j)%nat -> (0 < m)%nat -> nth_error ret m <> None) -> nth_error ret i <> None ->
  (forall m, (m <= j)%nat -> (0 < m)%nat -> nth_error ret m <> nth_error ret i) -> seed_loop draw fuel i j ret k = Finished (ret, k).
Proof.
  induction fuel as [|fuel IH]; intros i j ret k Hj Hf Hd Hi Hne; [lia|]. cbn [seed_loop]. destruct j as [|j]; [reflexivity|].
  pose proof (Hd (S j) ltac:(lia) ltac:(lia)) as Ha. pose proof (Hne (S j) ltac:(lia) ltac:(lia)) as Hb.
  destruct (nth_error ret (S j)) as [a|]; [|congruence]. destruct (nth_error ret i) as [b|] eqn:Eb; [|congruence].
  destruct (Z.eqb_spec a b) as [E|E]; [congruence|]. apply IH; try lia; try congruence.
  - intros m H1 H2. apply Hd; lia.
  - intros m H1 H2. rewrite Eb. apply Hne; lia.
Qed.
Lemma seeds_from_distinct fuel : forall n i k, (forall a b, (a < i + n)%nat -> (b < i + n)%nat -> draw a = draw b -> a = b) -> (i + n <= fuel)%nat -> (0 < i)%nat -> k = i ->
  forall ret, length ret = (i + n)%nat -> (forall m, (m < i)%nat -> nth_error ret m = Some (draw m)) ->
  seeds_from draw fuel i n ret k = Finished (map draw (seq 0 (i + n)), (k + n)%nat).
Proof.
  induction n as [|n IH]; intros i k Hinj Hfu Hi Hk ret Hlen Hret; subst k; cbn [seeds_from].
  - rewrite Nat.add_0_r in *. f_equal. f_equal. apply nth_error_ext. intros m. rewrite nth_error_map. destruct (le_lt_dec i m) as [Hm|Hm].
    + assert (E1 : nth_error ret m = None) by (apply nth_error_None; lia). assert (E2 : nth_error (seq 0 i) m = None) by (apply nth_error_None; rewrite seq_length; lia).
      rewrite E1, E2. reflexivity.
    + rewrite Hret by assumption. rewrite nth_error_seq. destruct (Nat.ltb_spec m i); [reflexivity|lia].
  - destruct (list_upd_some ret i (draw i)) as [r1 Hr1]; [lia|]. rewrite Hr1.
    assert (Hn : forall m, (m <= i)%nat -> nth_error r1 m = Some (draw m)).
    { intros m Hm. rewrite (list_upd_nth _ _ _ _ _ Hr1). destruct (Nat.eqb_spec m i) as [->|]; [reflexivity|]. apply Hret. lia. }
    rewrite seed_loop_distinct; [| lia|lia| | |].
    + replace (i + S n)%nat with (S i + n)%nat by lia. apply IH; try lia.
      * intros a b Ha Hb. apply Hinj; lia.
      * rewrite (list_upd_length _ _ _ _ Hr1). lia.
      * intros m Hm. apply Hn. lia.
    + intros m Hm _. rewrite Hn by lia. discriminate.
    + rewrite Hn by lia. discriminate.
    + intros m Hm _. rewrite !Hn by lia. intros E. inversion E as [E']. apply Hinj in E'; lia.
Qed.
Lemma generate_seed_distinct fuel n : (0 < n)%nat -> (n <= fuel)%nat -> (forall a b, (a < n)%nat -> (b < n)%nat -> draw a = draw b -> a = b) ->
  generate_seed draw fuel n = Finished (map draw (seq 0 n)).
Proof.
  intros Hn Hf Hinj. destruct n as [|n]; [lia|]. unfold generate_seed. cbn [repeat list_upd].
  rewrite seeds_from_distinct; [reflexivity|assumption|lia|lia|reflexivity|cbn; rewrite repeat_length; reflexivity|].
  intros m Hm. assert (m = 0)%nat by lia. subst m. reflexivity.
Qed.
Lemma map_draw_nodup n : (forall a b, (a < n)%nat -> (b < n)%nat -> draw a = draw b -> a = b) -> NoDup (map draw (seq 0 n)).
Proof.
  intros Hinj. apply NoDup_nth_error. intros i j Hi E. rewrite map_length, seq_length in Hi. rewrite !nth_error_map, !nth_error_seq in E.
  destruct (Nat.ltb_spec i n); [|lia]. destruct (Nat.ltb_spec j n); cbn in E; [|discriminate]. inversion E. apply Hinj; assumption.
Qed.
End Seeds.
