(** Proofs about the optimizer, continued: the best entry, the seeds, and an executable form
    of the steps. *)
From Coq Require Import Permutation Sorted.
From Verif Require Import Base Problem_model Problem_spec Merged_model Merged_spec Classify_model Matrix_model Rows_model Rows_spec Rows_proofs
  Validate_model Solver_model Solver_spec Solver_proofs Pool_model Pool_spec Pool_proofs.
Open Scope Z_scope.

Lemma better_iff mode a b : better mode a b = true <-> better_value mode a b.
Proof. destruct mode; cbn; apply Z.ltb_lt. Qed.
Lemma entry_lt_iff mode a b : entry_lt mode a b = true <-> strictly_better mode a b.
Proof.
  unfold entry_lt, strictly_better. destruct (Z.ltb_spec (e_remaining a) (e_remaining b)).
  - split; auto.
  - destruct (Z.eqb_spec (e_remaining a) (e_remaining b)).
    + rewrite better_iff. unfold better_value. split; [auto|]. intros [H1|[_ H1]]; [lia|exact H1].
    + split; [discriminate|]. intros [H1|[H1 _]]; lia.
Qed.
Lemma entry_lt_false mode a b : entry_lt mode a b = false <-> ~ strictly_better mode a b.
Proof. rewrite <- entry_lt_iff. destruct (entry_lt mode a b); split; congruence. Qed.
Lemma not_better_trans mode a b c : ~ strictly_better mode a b -> ~ strictly_better mode b c -> ~ strictly_better mode a c.
Proof. unfold strictly_better. destruct mode; lia. Qed.
Lemma not_better_refl mode a : ~ strictly_better mode a a.
Proof. unfold strictly_better. destruct mode; lia. Qed.

Section Best.
Context {F G : Type} (fo : fops F) (ro : rops G)
        (std_sort : forall A : Type, (A -> A -> bool) -> list A -> list A) (hash : list bool -> Z).
Hypothesis Hperm : permutes std_sort.
Hypothesis Hsort : sorts std_sort.
Variables (mode : objective_type) (obj : objective) (cs : list merged) (op : oparams F) (size : nat).
Hypothesis Hsize : (5 <= size)%nat.
Local Notation step := (step fo ro std_sort hash mode obj op).
Local Notation wstep := (wstep fo ro std_sort hash mode obj op).

Lemma front_some p : well_formed size p -> exists id e, nth_error (pl_indices p) 0 = Some id /\ nth_error (pl_data p) id = Some e /\ get_best p 0 = Some e.
Proof.
  intros [H1 H2]. pose proof (Permutation_length H2) as Hl. rewrite seq_length in Hl.
  destruct (pl_indices p) as [|id l] eqn:E; [cbn in Hl; lia|].
  assert (Hid : (id < size)%nat). { assert (In id (seq 0 size)) by (eapply Permutation_in; [exact H2|left; reflexivity]). apply in_seq in H. lia. }
  destruct (nth_error (pl_data p) id) as [e|] eqn:Ee; [|apply nth_error_None in Ee; lia].
  exists id, e. split; [reflexivity|]. split; [assumption|]. unfold get_best. rewrite E. cbn. assumption.
Qed.
Lemma pool_lt_weak data : (forall a, pool_lt mode data a a = false) /\
  (forall a b c, pool_lt mode data a b = true -> pool_lt mode data b c = true -> pool_lt mode data a c = true) /\
  (forall a b c, pool_lt mode data a b = false -> pool_lt mode data b c = false -> pool_lt mode data a c = false).
Proof.
  unfold pool_lt. split; [|split]; intros.
  - apply entry_lt_false, not_better_refl.
  - apply entry_lt_iff. apply entry_lt_iff in H, H0. revert H H0. unfold strictly_better. destruct mode; lia.
  - apply entry_lt_false. apply entry_lt_false in H, H0. eapply not_better_trans; eassumption.
Qed.
(** After a sort the first entry is not worse than any. *)
Lemma sorted_front p p' f e : well_formed size p -> pool_sort std_sort mode p = Some p' -> get_best p' 0 = Some f -> In e (pl_data p) -> ~ strictly_better mode e f.
Proof.
  intros Hwf Hs Hf He. pose proof (pool_sort_wf std_sort Hperm mode size _ _ Hs Hwf) as Hwf'. apply pool_sort_fields in Hs. destruct Hs as (E1 & _ & _ & E2 & _).
  destruct (pool_lt_weak (pl_data p)) as (W1 & W2 & W3). pose proof (Hsort _ (pool_lt mode (pl_data p)) (pl_indices p) W1 W2 W3) as Hss. rewrite <- E2 in Hss.
  destruct (front_some _ Hwf') as (id & f' & Hi & Hd & Hg). rewrite Hg in Hf. inversion Hf; subst f'. rewrite E1 in Hd.
  apply In_nth_error in He. destruct He as [k Hk].
  assert (Hin : In k (pl_indices p')). { destruct Hwf' as [L P]. eapply Permutation_in; [symmetry; exact P|]. apply in_seq. rewrite <- L, E1. split; [lia|]. cbn. apply nth_error_Some. congruence. }
  destruct (pl_indices p') as [|i0 l] eqn:El; [destruct Hin|]. cbn in Hi. inversion Hi; subst i0. apply StronglySorted_inv in Hss. destruct Hss as [_ Hall].
  destruct Hin as [<-|Hin].
  - rewrite Hd in Hk. inversion Hk. apply not_better_refl.
  - rewrite Forall_forall in Hall. specialize (Hall _ Hin). unfold pool_lt in Hall. rewrite (nth_error_nth _ _ _ Hk), (nth_error_nth _ _ _ Hd) in Hall.
    apply entry_lt_false. assumption.
Qed.

Definition not_front (s : sys F G) : Prop := forall i w k id new rest, nth_error (sy_workers s) i = Some w -> wk_pc w = W_write k id new rest ->
  nth_error (pl_indices (sy_pool s)) 0 <> Some id.
Lemma wf_nodup p : well_formed size p -> NoDup (pl_indices p).
Proof. intros [_ H]. eapply Permutation_NoDup; [symmetry; exact H|apply seq_NoDup]. Qed.
Lemma picked_not_front p r id : well_formed size p -> (length (pl_data p) / 5 <= r)%nat -> nth_error (pl_indices p) r = Some id ->
  nth_error (pl_indices p) 0 <> Some id.
Proof.
  intros Hwf Hr Hid H0. pose proof (wf_nodup _ Hwf) as Hnd. destruct Hwf as [L _]. rewrite L in Hr.
  assert (H1 : (1 <= size / 5)%nat) by (apply Nat.div_le_lower_bound; lia).
  assert (E : 0%nat = r); [|lia]. eapply NoDup_nth_error; [exact Hnd| |congruence]. apply nth_error_Some. congruence.
Qed.
(** The first entry after a step. *)
Lemma wstep_front free p w p' w' f f' : wstep free p w p' w' -> well_formed size p ->
  (forall k id new rest, wk_pc w = W_write k id new rest -> nth_error (pl_indices p) 0 <> Some id) ->
  get_best p 0 = Some f -> get_best p' 0 = Some f' -> ~ strictly_better mode f f'.
Proof.
  intros H Hwf Hnf Hf Hf'.
  assert (Hkey : forall data, pl_indices p' = pl_indices p -> pl_data p' = data -> (forall id e, nth_error (pl_data p) id = Some e -> nth_error (pl_indices p) 0 = Some id ->
    exists e', nth_error data id = Some e' /\ e_remaining e' = e_remaining e /\ e_value e' = e_value e) -> ~ strictly_better mode f f').
  { intros data E1 E2 Hk. destruct (front_some _ Hwf) as (id & e & Hi & He & Hg). rewrite Hg in Hf. inversion Hf; subst e.
    destruct (Hk _ _ He Hi) as (e' & He' & R & V). unfold get_best in Hf'. rewrite E1, Hi in Hf'. cbn in Hf'. rewrite E2, He' in Hf'. inversion Hf'; subst e'.
    unfold strictly_better. rewrite R, V. destruct mode; lia. }
  destruct H as [p w E|p w p' a kappa x fuel evs od s E Hre Hro|p w E|p w ev rest E Hc|p w ev rest d new E Hc He
    |p w new rest r id E Hr Hid|p w k id new rest data E Hm|p w rest p' E Hfr Hs]; try (rewrite Hf in Hf'; inversion Hf'; apply not_better_refl).
  - apply reinit_data in Hre. destruct Hre as (E1 & _ & _ & [E2|(_ & id & z & _ & E2)]).
    + apply (Hkey (pl_data p)); [assumption|assumption|]. intros id e He _. eauto.
    + eapply Hkey; [assumption|reflexivity|]. intros id' e He _. rewrite (list_modify_nth _ _ _ _ _ E2). destruct (Nat.eqb_spec id' id) as [E3|E3]; [|eauto].
      rewrite <- E3, He. cbn. eexists. split; [reflexivity|]. split; reflexivity.
  - eapply Hkey; [reflexivity|reflexivity|]. intros id' e He Hi. cbn. rewrite (list_modify_nth _ _ _ _ _ Hm). destruct (Nat.eqb_spec id' id) as [E3|E3]; [|eauto].
    exfalso. subst id'. exact (Hnf _ _ _ _ E Hi).
  - apply (sorted_front p p' f' f Hwf Hs Hf'). destruct (front_some _ Hwf) as (id & e & _ & He & Hg). rewrite Hg in Hf. inversion Hf; subst e. eapply nth_error_In; eassumption.
Qed.
Lemma wstep_indices free p w p' w' : wstep free p w p' w' -> (exists rest, wk_pc w = W_sort rest) \/ pl_indices p' = pl_indices p.
Proof.
  intros H. destruct H as [p w E|p w p' a kappa x fuel evs od s E Hre Hro|p w E|p w ev rest E Hc|p w ev rest d new E Hc He
    |p w new rest r id E Hr Hid|p w k id new rest data E Hm|p w rest p' E Hfr Hs]; auto.
  - apply reinit_data in Hre. tauto.
  - left. eauto.
Qed.
Lemma wstep_victim free p w p' w' k id new rest : wstep free p w p' w' -> well_formed size p -> wk_pc w' = W_write k id new rest ->
  (forall k id new rest, wk_pc w = W_write k id new rest -> nth_error (pl_indices p) 0 <> Some id) -> nth_error (pl_indices p') 0 <> Some id.
Proof.
  intros H Hwf Hpc Hnf. destruct H as [p w E|p w p' a kappa x fuel evs od s E Hre Hro|p w E|p w ev rest' E Hc|p w ev rest' d new' E Hc He
    |p w new' rest' r id' E Hr Hid|p w k' id' new' rest' data E Hm|p w rest' p' E Hfr Hs]; unfold with_pc in Hpc; cbn [wk_pc] in Hpc; try discriminate.
  - inversion Hpc; subst. eapply picked_not_front; try eassumption. lia.
  - destruct (Nat.ltb k' 5); [|discriminate]. inversion Hpc; subst. cbn. eapply Hnf; eassumption.
Qed.
Lemma step_not_front s s' : step s s' -> well_formed size (sy_pool s) -> one_insertion s -> not_front s -> not_front s'.
Proof.
  intros H Hwf Hone Hnf. destruct H as [s i w p' w' l Hi Hs Hl]. intros j v k id new rest Hj Hv. cbn [sy_pool sy_workers] in *.
  rewrite (list_upd_nth _ _ _ _ _ Hl) in Hj. destruct (Nat.eqb_spec j i) as [E|E].
  - inversion Hj; subst v. eapply wstep_victim; try eassumption. intros; eapply Hnf; eassumption.
  - destruct (wstep_indices _ _ _ _ _ Hs) as [[r Hr]|E2]; [|rewrite E2; eapply Hnf; eassumption].
    exfalso. apply E. apply (Hone j i v w Hj Hi); unfold inserting; [rewrite Hv|rewrite Hr]; exact I.
Qed.
Lemma steps_best s s' f f' : steps step one_insertion s s' -> well_formed size (sy_pool s) -> not_front s ->
  get_best (sy_pool s) 0 = Some f -> get_best (sy_pool s') 0 = Some f' -> ~ strictly_better mode f f'.
Proof.
  intros H Hwf Hnf Hf. revert f'.
  assert (HI : one_insertion s' /\ well_formed size (sy_pool s') /\ not_front s' /\ (forall f', get_best (sy_pool s') 0 = Some f' -> ~ strictly_better mode f f')); [|tauto].
  induction H as [s Hq|s s1 s2 H IH Hst Hq].
  - repeat (split; [assumption|]). intros f' Hf'. rewrite Hf in Hf'. inversion Hf'. apply not_better_refl.
  - destruct (IH Hwf Hnf Hf) as (Q1 & W1 & N1 & B1). split; [assumption|]. split; [eapply step_wf; eassumption|]. split; [eapply step_not_front; eassumption|].
    intros f' Hf'. destruct (front_some _ W1) as (id1 & f1 & _ & _ & Hf1). apply (not_better_trans mode _ f1); [auto|].
    destruct Hst as [t i w p' w' l Hi Hs Hl]. eapply wstep_front; try eassumption. intros; eapply N1; eassumption.
Qed.
Lemma steps_not_front s s' : steps step one_insertion s s' -> well_formed size (sy_pool s) -> not_front s -> well_formed size (sy_pool s') /\ not_front s'.
Proof.
  intros H Hwf Hnf. apply (steps_inv _ _ (fun s => well_formed size (sy_pool s) /\ not_front s) _ _ H); [|tauto].
  intros a b [H1 H2] Q1 _ Hab. split; [eapply step_wf; eassumption|eapply step_not_front; eassumption].
Qed.

(** ** One worker: every solution found counts *)
Variables (n : nat) (cl : solver_class).
Hypothesis Hrows : forall r, In r cs -> row_ok n r.
(** [e] is a solution at least as good as the value [v]. *)
Definition as_good (v : Z) (e : entry) : Prop := e_remaining e = 0 /\ ~ better_value mode v (e_value e).
Definition front_good (p : pool) (v : Z) : Prop := exists f, get_best p 0 = Some f /\ as_good v f.
Definition queued (v : Z) (l : list event) : Prop := exists x loop, In (ev_update x v loop) l.
Definition covered (p : pool) (pc : wpc) (v : Z) : Prop :=
  match pc with
  | W_top | W_done => front_good p v
  | W_events l => queued v l \/ front_good p v
  | W_pick new rest | W_write _ _ new rest => as_good v new \/ queued v rest \/ front_good p v
  | W_sort rest => queued v rest \/ exists e, In e (pl_data p) /\ as_good v e
  end.
Definition minimal (p : pool) : Prop := forall f e, get_best p 0 = Some f -> In e (pl_data p) -> ~ strictly_better mode e f.
Definition solo (p : pool) (pc : wpc) : Prop :=
  match pc with
  | W_write k id new _ => exists e, nth_error (pl_data p) id = Some e /\ agrees k new e
  | W_sort _ => True
  | _ => minimal p
  end.
Lemma as_good_min v e f : as_good v e -> ~ strictly_better mode e f -> 0 <= e_remaining f -> as_good v f.
Proof. unfold as_good, strictly_better, better_value. destruct mode; lia. Qed.
Lemma better_value_irr v : ~ better_value mode v v.
Proof. unfold better_value. destruct mode; lia. Qed.

Lemma reinit_keys p a x p' a' kappa x' : reinit fo op p a x p' a' kappa x' -> pl_indices p' = pl_indices p /\
  (forall id e', nth_error (pl_data p') id = Some e' -> exists e, nth_error (pl_data p) id = Some e /\ e_remaining e' = e_remaining e /\ e_value e' = e_value e) /\
  (forall id e, nth_error (pl_data p) id = Some e -> exists e', nth_error (pl_data p') id = Some e' /\ e_remaining e' = e_remaining e /\ e_value e' = e_value e).
Proof.
  intros H. apply reinit_data in H. destruct H as (E1 & _ & _ & [E2|(_ & id & z & _ & E2)]); (split; [assumption|]).
  - rewrite E2. split; intros; eauto.
  - split; intros id' e; rewrite (list_modify_nth _ _ _ _ _ E2); destruct (Nat.eqb_spec id' id) as [->|E]; eauto.
    + destruct (nth_error (pl_data p) id) as [e0|]; cbn; [|discriminate]. intros H; inversion H. exists e0. repeat split; reflexivity.
    + intros ->. cbn. eexists. split; [reflexivity|]. split; reflexivity.
Qed.
Lemma keys_front p p' : pl_indices p' = pl_indices p ->
  (forall id e, nth_error (pl_data p) id = Some e -> exists e', nth_error (pl_data p') id = Some e' /\ e_remaining e' = e_remaining e /\ e_value e' = e_value e) ->
  forall f, get_best p 0 = Some f -> exists f', get_best p' 0 = Some f' /\ e_remaining f' = e_remaining f /\ e_value f' = e_value f.
Proof.
  intros E1 Hk f. unfold get_best. rewrite E1. destruct (nth_error (pl_indices p) 0) as [id|]; cbn; [|discriminate]. apply Hk.
Qed.
Lemma wstep_solo free p w p' w' v : wstep free p w p' w' -> well_formed size p -> pool_sized n p -> worker_ok (G := G) fo mode obj cs n cl w ->
  (forall k id new rest, wk_pc w = W_write k id new rest -> nth_error (pl_indices p) 0 <> Some id) ->
  solo p (wk_pc w) -> solo p' (wk_pc w') /\ (covered p (wk_pc w) v -> covered p' (wk_pc w') v).
Proof.
  intros H Hwf Hsz Hwok Hnf Hsolo. destruct H as [p w E|p w p' a kappa x fuel evs od s E Hre Hro|p w E|p w ev rest E Hc|p w ev rest d new E Hc He
    |p w new rest r id E Hr Hid|p w k id new rest data E Hm|p w rest p' E Hfr Hs]; rewrite E in *; cbn [wk_pc with_pc covered solo] in *.
  - auto.
  - apply reinit_keys in Hre. destruct Hre as (E1 & K1 & K2). split.
    + intros f' e' Hf' He'. apply In_nth_error in He'. destruct He' as [id' He']. destruct (K1 _ _ He') as (e & He & R & V).
      destruct (front_some _ Hwf) as (id & f & Hi & Hf & Hg). destruct (keys_front _ _ E1 K2 _ Hg) as (f1 & Hf1 & R1 & V1). rewrite Hf1 in Hf'. inversion Hf'; subst f1.
      specialize (Hsolo f e Hg (nth_error_In _ _ He)). revert Hsolo. unfold strictly_better. rewrite R, V, R1, V1. tauto.
    + intros (f & Hf & G1 & G2). right. destruct (keys_front _ _ E1 K2 _ Hf) as (f1 & Hf1 & R1 & V1). exists f1. unfold as_good. rewrite R1, V1. auto.
  - split; [assumption|]. intros [(x & lo & [])|?]. assumption.
  - split; [assumption|]. intros [(x & lo & [Hev|Hin])|?]; [|left; eexists _, _; eassumption|auto]. subst ev. right. cbn in Hc.
    assert (Hex : exists e, In e (pl_data p) /\ as_good v e).
    { revert Hc. generalize (pl_data p). induction l as [|e l IH]; cbn; [discriminate|]. intros Hc.
      destruct ((e_remaining e =? 0) && (e_value e =? v) && (e_hash e =? hash x)) eqn:Eb.
      - exists e. split; [auto|]. apply andb_true_iff in Eb. destruct Eb as [Eb _]. apply andb_true_iff in Eb. destruct Eb as [B1 B2]. apply Z.eqb_eq in B1, B2. split; [assumption|]. rewrite B2. apply better_value_irr.
      - cbn in Hc. destruct (IH Hc) as (e' & He' & Hg). exists e'. auto. }
    destruct Hex as (e & He & Hg). destruct (front_some _ Hwf) as (id & f & Hi & Hf & Hgb). exists f. split; [assumption|].
    eapply as_good_min; [exact Hg|apply Hsolo; assumption|]. apply Hsz. eapply nth_error_In; eassumption.
  - split; [assumption|]. intros [(x & lo & [Hev|Hin])|?]; [|right; left; eexists _, _; eassumption|auto]. subst ev. cbn in He. inversion He. left.
    unfold as_good. cbn. split; [reflexivity|apply better_value_irr].
  - split; [|auto]. destruct (nth_error (pl_data p) id) as [e|] eqn:Ee. { exists e. split; [reflexivity|apply agrees_0]. }
    exfalso. destruct Hwf as [L P]. apply nth_error_In in Hid. apply (Permutation_in _ P) in Hid. apply in_seq in Hid. apply nth_error_None in Ee. lia.
  - destruct Hsolo as (e0 & He0 & Hag). destruct Hwok as (_ & _ & Hpc). rewrite E in Hpc. destruct Hpc as (_ & _ & Hk). pose proof (agrees_write _ _ _ Hk Hag) as Hag'.
    assert (Hnew : nth_error data id = Some (write_field k new e0)) by (rewrite (list_modify_nth _ _ _ _ _ Hm), Nat.eqb_refl, He0; reflexivity).
    assert (Hfront : front_good p v -> exists f, get_best (mk_pool (pl_indices p) data (pl_bastert p) (pl_random p)) 0 = Some f /\ as_good v f /\ In f data).
    { intros (f & Hf & Hg). exists f. destruct (front_some _ Hwf) as (id' & f' & Hi & Hd & Hg'). rewrite Hg' in Hf. inversion Hf; subst f'.
      assert (Hd' : nth_error data id' = Some f). { rewrite (list_modify_nth _ _ _ _ _ Hm). destruct (Nat.eqb_spec id' id) as [E3|E3]; [|assumption]. exfalso. subst id'. exact (Hnf _ _ _ _ eq_refl Hi). }
      unfold get_best. cbn [pl_indices pl_data]. rewrite Hi. cbn [bind]. split; [assumption|]. split; [assumption|]. eapply nth_error_In; eassumption. }
    destruct (Nat.ltb_spec k 5) as [L|L]; cbn [solo covered pl_data].
    + split; [eauto|]. intros [?|[?|Hfg]]; [auto|auto|]. destruct (Hfront Hfg) as (f & H1 & H2 & _). right. right. exists f. auto.
    + split; [exact I|]. assert (Ek : k = 5%nat) by lia. subst k. apply agrees_6 in Hag'. rewrite Hag' in Hnew. intros [Hg|[?|Hfg]]; [|auto|].
      * right. exists new. split; [eapply nth_error_In; eassumption|assumption].
      * destruct (Hfront Hfg) as (f & _ & H2 & H3). right. exists f. auto.
  - pose proof (pool_sort_fields std_sort mode _ _ Hs) as (E1 & _ & _ & E2 & _). split.
    + intros f e Hf He. eapply sorted_front; try eassumption. rewrite <- E1. assumption.
    + intros [?|(e & He & Hg)]; [auto|]. right. destruct (front_some _ (pool_sort_wf std_sort Hperm mode size _ _ Hs Hwf)) as (id & f & Hi & Hd & Hgb).
      exists f. split; [assumption|]. eapply as_good_min; [exact Hg|eapply sorted_front; eassumption|]. apply Hsz. rewrite <- E1. eapply nth_error_In; eassumption.
Qed.

Definition alone (s : sys F G) : Prop := length (sy_workers s) = 1%nat.
Definition solo_inv (s : sys F G) : Prop := well_formed size (sy_pool s) /\ sys_ok fo mode obj cs n cl s /\ not_front s /\
  forall w, In w (sy_workers s) -> solo (sy_pool s) (wk_pc w).
Lemma alone_one s : alone s -> one_insertion s.
Proof. intros H i j wi wj Hi Hj _ _. unfold alone in H. assert (i < 1)%nat by (rewrite <- H; apply nth_error_Some; congruence). assert (j < 1)%nat by (rewrite <- H; apply nth_error_Some; congruence). lia. Qed.
Lemma step_solo s s' : step s s' -> alone s -> solo_inv s -> alone s' /\ solo_inv s' /\
  forall v w w', In w (sy_workers s) -> In w' (sy_workers s') -> covered (sy_pool s) (wk_pc w) v -> covered (sy_pool s') (wk_pc w') v.
Proof.
  intros H Ha (Hwf & Hok & Hnf & Hso). pose proof (step_wf fo ro std_sort hash Hperm mode obj op size _ _ H Hwf) as Hwf'.
  pose proof (step_ok fo ro std_sort hash mode obj cs op n cl Hrows _ _ H Hok) as Hok'.
  pose proof (step_not_front _ _ H Hwf (alone_one _ Ha) Hnf) as Hnf'.
  destruct H as [s i w p' w' l Hi Hs Hl]. unfold alone in *. cbn [sy_workers sy_pool] in *.
  assert (Ew : sy_workers s = [w]). { destruct (sy_workers s) as [|a [|b q]]; cbn in Ha; try discriminate. destruct i as [|[|i]]; cbn in Hi; try discriminate. congruence. }
  assert (El : l = [w']). { rewrite Ew in *. destruct i as [|i]; cbn in Hl; [congruence|]. destruct i; discriminate. }
  assert (Hw : In w (sy_workers s)) by (rewrite Ew; left; reflexivity).
  assert (HH : forall v, solo p' (wk_pc w') /\ (covered (sy_pool s) (wk_pc w) v -> covered p' (wk_pc w') v)).
  { intros v. eapply wstep_solo; try eassumption; [apply Hok|apply Hok; assumption|intros; eapply Hnf; eassumption|apply Hso; assumption]. }
  split; [rewrite El; reflexivity|]. split.
  - split; [assumption|]. split; [assumption|]. split; [assumption|]. cbn. rewrite El. intros u [<-|[]]. apply (HH 0).
  - intros v u u' Hu Hu'. rewrite Ew in Hu. rewrite El in Hu'. destruct Hu as [<-|[]]. destruct Hu' as [<-|[]]. apply HH.
Qed.
Lemma steps_covered s s' v w : steps step any s s' -> alone s -> solo_inv s -> In w (sy_workers s) -> covered (sy_pool s) (wk_pc w) v ->
  forall w', In w' (sy_workers s') -> covered (sy_pool s') (wk_pc w') v.
Proof.
  intros H Ha Hi Hw Hc. assert (HI : alone s' /\ solo_inv s' /\ (forall w', In w' (sy_workers s') -> covered (sy_pool s') (wk_pc w') v)); [|tauto].
  apply (steps_inv _ _ (fun s' => alone s' /\ solo_inv s' /\ (forall w', In w' (sy_workers s') -> covered (sy_pool s') (wk_pc w') v)) _ _ H).
  - intros a b (A1 & A2 & A3) _ _ Hab. destruct (step_solo _ _ Hab A1 A2) as (B1 & B2 & B3). split; [assumption|]. split; [assumption|]. intros w' Hw'.
    unfold alone in A1. destruct (sy_workers a) as [|u [|? ?]] eqn:Eu; try discriminate. apply (B3 v u w'); [left; reflexivity|assumption|]. apply A3. left. reflexivity.
  - split; [assumption|]. split; [assumption|]. intros w' Hw'. unfold alone in Ha. destruct (sy_workers s) as [|u [|? ?]]; try discriminate.
    destruct Hw as [<-|[]]. destruct Hw' as [<-|[]]. assumption.
Qed.
Lemma steps_solo s s' : steps step any s s' -> alone s -> solo_inv s -> alone s' /\ solo_inv s'.
Proof.
  intros H Ha Hi. apply (steps_inv _ _ (fun s => alone s /\ solo_inv s) _ _ H); [|tauto]. intros a b (A1 & A2) _ _ Hab.
  destruct (step_solo _ _ Hab A1 A2) as (B1 & B2 & _). auto.
Qed.
(** The start. *)
Lemma start_solo bastert xs p0 (w : worker F G) : make_pool std_sort hash mode obj cs bastert xs = Some p0 -> length bastert = n ->
  (forall x, In x xs -> length x = n) -> length xs = size -> starts fo op cl cs n mode w -> solo_inv (mk_sys p0 [w]).
Proof.
  intros Hp Hb Hx Hl Hw. pose proof (make_pool_wf std_sort hash Hperm mode obj cs _ _ _ Hp) as Hwf. rewrite Hl in Hwf.
  destruct (make_pool_ok std_sort hash mode obj cs n _ _ _ Hp Hb Hx) as [Hps _].
  pose proof (starts_ok fo mode obj cs op n cl w Hw) as Hwok. destruct Hw as (c & after & g & s & _ & Ew).
  split; [assumption|]. split; [split; [assumption|intros u [<-|[]]; assumption]|]. split.
  - intros i v k id new rest Hi Hv. apply nth_error_In in Hi. destruct Hi as [<-|[]]. rewrite Ew in Hv. discriminate.
  - intros u [<-|[]]. rewrite Ew. cbn. unfold make_pool in Hp. destruct (initial_entries hash obj cs xs) as [d|] eqn:Ed; cbn [bind] in Hp; [|discriminate].
    intros f e Hf He. eapply sorted_front; [|exact Hp|exact Hf|].
    + apply initial_entries_ok in Ed. split; cbn; [destruct Ed; congruence|]. rewrite Hl. apply Permutation_refl.
    + apply pool_sort_fields in Hp. destruct Hp as (E1 & _). rewrite <- E1. assumption.
Qed.
End Best.

(** ** Executable steps *)
Inductive cross_choice :=
| X_bastert (r : nat) (mask : list bool) | X_bastert_replace (r : nat)
| X_random (r : nat) (mask rnd : list bool) | X_random_replace (r : nat) (rnd : list bool)
| X_two (r1 r2 : nat) (mask : list bool).
Inductive action :=
| A_stop | A_round (x : option cross_choice) (draws : list (option bool)) (fuel : nat) | A_end | A_event (d : Z) | A_pick (r : nat) | A_write | A_sort.
Section Exec.
Context {F G : Type} (fo : fops F) (ro : rops G)
        (std_sort : forall A : Type, (A -> A -> bool) -> list A -> list A) (hash : list bool -> Z).
Variables (mode : objective_type) (obj : objective) (op : oparams F).
Definition len_eqb {A B} (a : list A) (b : list B) : bool := Nat.eqb (length a) (length b).
Definition do_cross (p : pool) (x : list bool) (c : cross_choice) : option (pool * list bool) :=
  match c with
  | X_bastert r mask => do (id, y) <- x_at p r; if op_insertion op && len_eqb mask x then Some (p, cross mask y (pl_bastert p)) else None
  | X_bastert_replace r => do (id, y) <- x_at p r; do p' <- set_x p id (pl_bastert p); if op_insertion op then Some (p', x) else None
  | X_random r mask rnd => do (id, y) <- x_at p r; if op_insertion op && len_eqb mask x && len_eqb rnd x then Some (with_random p rnd, cross mask y rnd) else None
  | X_random_replace r rnd => do (id, y) <- x_at p r; do p' <- set_x (with_random p rnd) id rnd; if op_insertion op && len_eqb rnd x then Some (p', x) else None
  | X_two r1 r2 mask => do (id1, y1) <- x_at p r1; do (id2, y2) <- x_at p r2;
                        if negb (Nat.eqb id1 id2) && len_eqb mask x then Some (p, cross mask y1 y2) else None
  end.
Lemma do_cross_ok p x c p' y : do_cross p x c = Some (p', y) -> crossover (op_insertion op) p x p' y.
Proof.
  unfold do_cross, len_eqb. destruct c as [r mask|r|r mask rnd|r rnd|r1 r2 mask].
  - destruct (x_at p r) as [[id z]|] eqn:E; cbn [bind]; [|discriminate]. destruct (op_insertion op); cbn; [|discriminate]. destruct (Nat.eqb_spec (length mask) (length x)); [|discriminate].
    intros H; inversion H; subst. eapply cr_bastert; try eassumption; try reflexivity.
  - destruct (x_at p r) as [[id z]|] eqn:E; cbn [bind]; [|discriminate]. destruct (set_x p id (pl_bastert p)) as [q|] eqn:E2; cbn [bind]; [|discriminate]. destruct (op_insertion op); [|discriminate].
    intros H; inversion H; subst. eapply cr_bastert_replace; try eassumption; try reflexivity.
  - destruct (x_at p r) as [[id z]|] eqn:E; cbn [bind]; [|discriminate]. destruct (op_insertion op); cbn; [|discriminate]. destruct (Nat.eqb_spec (length mask) (length x)); cbn; [|discriminate].
    destruct (Nat.eqb_spec (length rnd) (length x)); [|discriminate]. intros H; inversion H; subst. eapply cr_random; try eassumption; try reflexivity.
  - destruct (x_at p r) as [[id z]|] eqn:E; cbn [bind]; [|discriminate]. destruct (set_x _ id rnd) as [q|] eqn:E2; cbn [bind]; [|discriminate]. destruct (op_insertion op); cbn; [|discriminate].
    destruct (Nat.eqb_spec (length rnd) (length x)); [|discriminate]. intros H; inversion H; subst. eapply cr_random_replace; try eassumption; try reflexivity.
  - destruct (x_at p r1) as [[id1 z1]|] eqn:E1; cbn [bind]; [|discriminate]. destruct (x_at p r2) as [[id2 z2]|] eqn:E2; cbn [bind]; [|discriminate].
    destruct (Nat.eqb_spec id1 id2); cbn; [discriminate|]. destruct (Nat.eqb_spec (length mask) (length x)); [|discriminate]. intros H; inversion H; subst. eapply cr_two; eassumption.
Qed.
Definition exec1 (free : bool) (p : pool) (w : worker F G) (a : action) : option (pool * worker F G) :=
  match a, wk_pc w with
  | A_stop, W_top => Some (p, with_pc w W_done)
  | A_round xc draws fuel, W_top =>
    let x := s_x (wk_s w) in
    let mut y := if op_mutation op then mutation_from 0 draws y else y in
    let pa := op_s op in
    do (p', a', kappa, x') <-
      match xc with
      | None => if fl_lt fo (wk_append w) (op_stop op)
                then let a' := fl_add fo (wk_append w) (op_increase op) in
                     Some (p, a', fl_add fo (pa_kappa_min pa) (fl_mul fo (fl_sub fo (pa_kappa_max pa) (pa_kappa_min pa)) a'), mut x)
                else None
      | Some c => if fl_lt fo (wk_append w) (op_stop op) then None
                  else do (p', y) <- do_cross p x c; Some (p', op_start op, pa_kappa_min pa, mut y)
      end;
    match round fo ro std_sort obj fuel (wk_sv w) pa kappa (wk_od w) (with_x (wk_s w) x') with
    | Finished (evs, od, s) => Some (p', mk_worker (W_events evs) a' od (wk_sv w) s)
    | _ => None
    end
  | A_end, W_events [] => Some (p, with_pc w W_top)
  | A_event d, W_events (ev :: rest) =>
    if can_be_inserted hash p ev then do new <- entry_of hash obj d ev; Some (p, with_pc w (W_pick new rest))
    else Some (p, with_pc w (W_events rest))
  | A_pick r, W_pick new rest =>
    if Nat.leb (length (pl_data p) / 5) r && Nat.ltb r (length (pl_data p))
    then do id <- nth_error (pl_indices p) r; Some (p, with_pc w (W_write 0 id new rest)) else None
  | A_write, W_write k id new rest =>
    do data <- list_modify (pl_data p) id (write_field k new);
    Some (mk_pool (pl_indices p) data (pl_bastert p) (pl_random p), with_pc w (if Nat.ltb k 5 then W_write (S k) id new rest else W_sort rest))
  | A_sort, W_sort rest => if free then do p' <- pool_sort std_sort mode p; Some (p', with_pc w (W_events rest)) else None
  | _, _ => None
  end.
Lemma exec1_ok free p w a p' w' : exec1 free p w a = Some (p', w') -> wstep fo ro std_sort hash mode obj op free p w p' w'.
Proof.
  unfold exec1. destruct a as [|xc draws fuel| |d|r| |], (wk_pc w) as [|evs|new rest|k id new rest|rest|] eqn:E; try discriminate.
  - intros H; inversion H. apply ws_stop. assumption.
  - match goal with |- bind ?e _ = _ -> _ => destruct e as [[[[p1 a1] k1] x1]|] eqn:E1; cbn [bind]; [|discriminate] end.
    destruct (round _ _ _ _ _ _ _ _ _ _) as [[[evs od] s]| |] eqn:E2; try discriminate. intros H; inversion H. eapply ws_round; try eassumption. subst p'.
    destruct xc as [c|].
    + destruct (fl_lt fo _ _) eqn:El; [discriminate|]. destruct (do_cross p _ c) as [[q y]|] eqn:Ec; cbn [bind] in E1; [|discriminate]. inversion E1; subst.
      eapply reinit_cross; [assumption|eapply do_cross_ok; eassumption|reflexivity].
    + destruct (fl_lt fo _ _) eqn:El; [|discriminate]. inversion E1; subst. eapply reinit_improve; [assumption|reflexivity].
  - destruct evs; [|discriminate]. intros H; inversion H. apply ws_end. assumption.
  - destruct evs as [|ev rest]; [discriminate|]. destruct (can_be_inserted hash p ev) eqn:Ec.
    + destruct (entry_of hash obj d ev) as [new|] eqn:En; cbn [bind]; [|discriminate]. intros H; inversion H; subst. eapply ws_accepted; eassumption.
    + intros H; inversion H; subst. eapply ws_refused; eassumption.
  - destruct (Nat.leb_spec (length (pl_data p) / 5) r); cbn [andb]; [|discriminate]. destruct (Nat.ltb_spec r (length (pl_data p))); [|discriminate].
    destruct (nth_error (pl_indices p) r) as [id|] eqn:Ei; cbn [bind]; [|discriminate]. intros HH; inversion HH; subst. eapply ws_pick; try eassumption. auto.
  - destruct (list_modify _ _ _) as [data|] eqn:Ed; cbn [bind]; [|discriminate]. intros H; inversion H; subst. eapply ws_write; eassumption.
  - destruct free; [|discriminate]. destruct (pool_sort _ _ _) as [q|] eqn:Eq; cbn [bind]; [|discriminate]. intros H; inversion H; subst. eapply ws_sort; try eassumption; reflexivity.
Qed.
Fixpoint exec (l : list (nat * action)) (s : sys F G) : option (sys F G) :=
  match l with
  | [] => Some s
  | (i, a) :: l' =>
    do w <- nth_error (sy_workers s) i;
    do (p', w') <- exec1 (lock_free (sy_workers s)) (sy_pool s) w a;
    do ws <- list_upd (sy_workers s) i w';
    exec l' (mk_sys p' ws)
  end.
Lemma exec_ok (Q : sys F G -> Prop) l : (forall s : sys F G, Q s) -> forall s s', exec l s = Some s' -> forall r, steps (step fo ro std_sort hash mode obj op) Q r s -> steps (step fo ro std_sort hash mode obj op) Q r s'.
Proof.
  intros HQ. induction l as [|[i a] l IH]; intros s s'; cbn [exec]; [intros H; inversion H; auto|].
  destruct (nth_error (sy_workers s) i) as [w|] eqn:Ei; cbn [bind]; [|discriminate].
  destruct (exec1 _ _ _ _) as [[p' w']|] eqn:Ee; cbn [bind]; [|discriminate].
  destruct (list_upd _ _ _) as [ws|] eqn:El; cbn [bind]; [|discriminate]. intros H r Hr. eapply IH; [exact H|]. eapply steps_next; [exact Hr| |apply HQ].
  eapply step_worker; try eassumption. eapply exec1_ok. eassumption.
Qed.
Lemma exec_length l : forall s s', exec l s = Some s' -> length (sy_workers s') = length (sy_workers s).
Proof.
  induction l as [|[i a] l IH]; intros s s'; cbn [exec]; [intros H; inversion H; reflexivity|].
  destruct (nth_error (sy_workers s) i) as [w|]; cbn [bind]; [|discriminate]. destruct (exec1 _ _ _ _) as [[p' w']|]; cbn [bind]; [|discriminate].
  destruct (list_upd _ _ _) as [ws|] eqn:El; cbn [bind]; [|discriminate]. intros H. apply IH in H. cbn in H. rewrite H. eapply list_upd_length; eassumption.
Qed.
(** With one worker, runs meet every condition on pairs of workers. *)
Lemma exec_alone (Q : sys F G -> Prop) l s s' : (forall t : sys F G, length (sy_workers t) = 1%nat -> Q t) -> length (sy_workers s) = 1%nat -> exec l s = Some s' ->
  steps (step fo ro std_sort hash mode obj op) Q s s'.
Proof.
  intros HQ H1. assert (HH : forall r, steps (step fo ro std_sort hash mode obj op) Q r s -> exec l s = Some s' -> steps (step fo ro std_sort hash mode obj op) Q r s').
  { revert s H1 s'. induction l as [|[i a] l IH]; intros s H1 s' r Hr; cbn [exec]; [intros H; inversion H; subst; assumption|].
    destruct (nth_error (sy_workers s) i) as [w|] eqn:Ei; cbn [bind]; [|discriminate].
    destruct (exec1 _ _ _ _) as [[p' w']|] eqn:Ee; cbn [bind]; [|discriminate].
    destruct (list_upd _ _ _) as [ws|] eqn:El; cbn [bind]; [|discriminate]. intros H.
    assert (Hl : length ws = 1%nat) by (rewrite (list_upd_length _ _ _ _ El); assumption).
    eapply IH; [| |exact H]; [assumption|]. eapply steps_next; [exact Hr| |apply HQ; assumption]. eapply step_worker; try eassumption. eapply exec1_ok. eassumption. }
  apply HH. constructor. apply HQ. assumption.
Qed.
End Exec.
