(** Proofs about the optimizer: shape of the pool, rounds of the workers, truthful entries. *)
From Coq Require Import Permutation Sorted.
From Verif Require Import Base Problem_model Problem_spec Merged_model Merged_spec Classify_model Matrix_model Rows_model Rows_spec Rows_proofs
  Validate_model Solver_model Solver_spec Solver_proofs Pool_model Pool_spec.
Open Scope Z_scope.

Lemma list_modify_nth {A} (l l' : list A) i f k : list_modify l i f = Some l' ->
  nth_error l' k = if Nat.eqb k i then option_map f (nth_error l i) else nth_error l k.
Proof.
  unfold list_modify. destruct (nth_error l i) as [a|] eqn:E; cbn; [|discriminate]. intros H. rewrite (list_upd_nth _ _ _ _ _ H). reflexivity.
Qed.
Lemma list_modify_len {A} (l l' : list A) i f : list_modify l i f = Some l' -> length l' = length l.
Proof. unfold list_modify. destruct (nth_error l i) as [a|]; cbn; [|discriminate]. apply list_upd_length. Qed.
Lemma list_modify_in {A} (l l' : list A) i f a : list_modify l i f = Some l' -> In a l' -> In a l \/ exists b, In b l /\ a = f b.
Proof.
  intros H Ha. apply In_nth_error in Ha. destruct Ha as [k Hk]. rewrite (list_modify_nth _ _ _ _ _ H) in Hk.
  destruct (Nat.eqb k i); [|left; eapply nth_error_In; eassumption]. destruct (nth_error l i) as [b|] eqn:E; cbn in Hk; [|discriminate].
  inversion Hk. right. exists b. split; [eapply nth_error_In; eassumption|reflexivity].
Qed.
Lemma list_upd_in {A} (l l' : list A) i a b : list_upd l i a = Some l' -> In b l' -> b = a \/ In b l.
Proof.
  intros H Hb. apply In_nth_error in Hb. destruct Hb as [k Hk]. rewrite (list_upd_nth _ _ _ _ _ H) in Hk.
  destruct (Nat.eqb k i); [inversion Hk; auto|right; eapply nth_error_In; eassumption].
Qed.
Lemma steps_inv {F G} (stp : sys F G -> sys F G -> Prop) Q (I : sys F G -> Prop) s s' : steps stp Q s s' ->
  (forall a b, I a -> Q a -> Q b -> stp a b -> I b) -> I s -> I s'.
Proof.
  intros H Hs. assert (Hq : Q s' /\ (I s -> I s')); [|tauto]. induction H as [s Hq|s s1 s2 H IH Hst Hq]; [tauto|].
  destruct IH as [Hq1 IH]. split; [assumption|]. intros HI. apply (Hs s1 s2); auto.
Qed.
Lemma steps_start {F G} (stp : sys F G -> sys F G -> Prop) Q s s' : steps stp Q s s' -> Q s.
Proof. induction 1; assumption. Qed.

Section PoolProofs.
Context {F G : Type} (fo : fops F) (ro : rops G)
        (std_sort : forall A : Type, (A -> A -> bool) -> list A -> list A) (hash : list bool -> Z).
Hypothesis Hperm : permutes std_sort.
Variables (mode : objective_type) (obj : objective) (cs : list merged) (op : oparams F).
Local Notation step := (step fo ro std_sort hash mode obj op).
Local Notation wstep := (wstep fo ro std_sort hash mode obj op).

(** ** Shape of the pool *)
Lemma pool_sort_fields p p' : pool_sort std_sort mode p = Some p' ->
  pl_data p' = pl_data p /\ pl_bastert p' = pl_bastert p /\ pl_random p' = pl_random p /\
  pl_indices p' = std_sort _ (pool_lt mode (pl_data p)) (pl_indices p) /\ all_below (length (pl_data p)) (pl_indices p) = true.
Proof. unfold pool_sort. destruct (all_below _ _); [|discriminate]. intros H; inversion H. cbn. auto. Qed.
Lemma pool_sort_wf size p p' : pool_sort std_sort mode p = Some p' -> well_formed size p -> well_formed size p'.
Proof.
  intros H [H1 H2]. apply pool_sort_fields in H. destruct H as (E1 & _ & _ & E2 & _). split; [congruence|]. rewrite E2.
  etransitivity; [apply Hperm|exact H2].
Qed.
Lemma set_x_fields p id x p' : set_x p id x = Some p' -> pl_indices p' = pl_indices p /\ pl_bastert p' = pl_bastert p /\ pl_random p' = pl_random p /\
  list_modify (pl_data p) id (fun e => mk_entry x (e_value e) (e_duration e) (e_hash e) (e_loop e) (e_remaining e)) = Some (pl_data p').
Proof. unfold set_x. destruct (list_modify _ _ _) as [d|]; cbn; [|discriminate]. intros H; inversion H. cbn. auto. Qed.
(** The data after a crossover: the same, or one assignment replaced (which needs insertion). *)
Lemma crossover_data ins p x p' y : crossover ins p x p' y ->
  pl_indices p' = pl_indices p /\ pl_bastert p' = pl_bastert p /\
  (pl_data p' = pl_data p \/
   (ins = true /\ exists id z, (z = pl_bastert p \/ length z = length x) /\
     list_modify (pl_data p) id (fun e => mk_entry z (e_value e) (e_duration e) (e_hash e) (e_loop e) (e_remaining e)) = Some (pl_data p'))).
Proof.
  intros H. destruct H as [| p x r id y p' Hi Hx Hs| |p x r id y rnd p' Hi Hx Hl Hs|]; cbn; auto.
  - apply set_x_fields in Hs. destruct Hs as (? & ? & _ & ?). split; [assumption|]. split; [assumption|]. right. eauto 10.
  - apply set_x_fields in Hs. cbn in Hs. destruct Hs as (? & ? & _ & ?). split; [assumption|]. split; [assumption|]. right. eauto 10.
Qed.
Lemma crossover_random ins p x p' y : crossover ins p x p' y -> length (pl_random p) = length x -> length (pl_random p') = length x.
Proof.
  intros H Hr. destruct H as [| p x r id y p' Hi Hx Hs| |p x r id y rnd p' Hi Hx Hl Hs|]; cbn; auto.
  - apply set_x_fields in Hs. destruct Hs as (_ & _ & -> & _). assumption.
  - apply set_x_fields in Hs. destruct Hs as (_ & _ & -> & _). assumption.
Qed.
Lemma reinit_data p a x p' a' kappa x' : reinit fo op p a x p' a' kappa x' ->
  pl_indices p' = pl_indices p /\ pl_bastert p' = pl_bastert p /\ (length (pl_random p) = length x -> length (pl_random p') = length x) /\
  (pl_data p' = pl_data p \/
   (op_insertion op = true /\ exists id z, (z = pl_bastert p \/ length z = length x) /\
     list_modify (pl_data p) id (fun e => mk_entry z (e_value e) (e_duration e) (e_hash e) (e_loop e) (e_remaining e)) = Some (pl_data p'))).
Proof.
  intros H. destruct H as [|p a x p' y draws x' Ha Hc Hx']. { split; [reflexivity|]. split; [reflexivity|]. split; [exact (fun h => h)|left; reflexivity]. }
  pose proof (crossover_random _ _ _ _ _ Hc) as Hr. apply crossover_data in Hc. destruct Hc as (H1 & H2 & H3).
  split; [exact H1|]. split; [exact H2|]. split; [exact Hr|exact H3].
Qed.

Lemma wstep_wf size free p w p' w' : wstep free p w p' w' -> well_formed size p -> well_formed size p'.
Proof.
  intros H Hwf. destruct H; try assumption.
  - match goal with H : reinit _ _ _ _ _ _ _ _ _ |- _ => apply reinit_data in H; destruct H as (E1 & _ & _ & E2) end.
    destruct Hwf as [W1 W2]. split; [|rewrite E1; exact W2]. destruct E2 as [->|(_ & id & z & _ & E2)]; [assumption|].
    rewrite (list_modify_len _ _ _ _ E2). assumption.
  - destruct Hwf as [W1 W2]. split; cbn; [|exact W2]. match goal with H : list_modify _ _ _ = Some _ |- _ => rewrite (list_modify_len _ _ _ _ H) end. assumption.
  - eapply pool_sort_wf; eassumption.
Qed.
Lemma step_wf size s s' : step s s' -> well_formed size (sy_pool s) -> well_formed size (sy_pool s').
Proof. intros H. destruct H. cbn. eapply wstep_wf; eassumption. Qed.

Lemma initial_entries_ok xs : forall l, initial_entries hash obj cs xs = Some l ->
  length l = length xs /\ forall e, In e l -> exists x, In x xs /\ initial_entry hash obj cs x = Some e.
Proof.
  induction xs as [|x xs IH]; intros l; cbn; [intros H; inversion H; split; [reflexivity|intros e []]|].
  destruct (initial_entry hash obj cs x) as [e|] eqn:Ee; cbn; [|discriminate].
  destruct (initial_entries hash obj cs xs) as [l1|]; cbn; [|discriminate]. intros H; inversion H; subst l.
  destruct (IH _ eq_refl) as [I1 I2]. split; [cbn; congruence|]. intros e' [<-|He]; [exists x; auto|]. destruct (I2 _ He) as (y & Hy & E). exists y. auto.
Qed.
Lemma make_pool_wf bastert xs p : make_pool std_sort hash mode obj cs bastert xs = Some p -> well_formed (length xs) p.
Proof.
  unfold make_pool. destruct (initial_entries hash obj cs xs) as [d|] eqn:E; cbn [bind]; [|discriminate]. intros H.
  eapply pool_sort_wf; [exact H|]. apply initial_entries_ok in E. split; cbn; [tauto|apply Permutation_refl].
Qed.

(** ** Lengths *)
Variable n : nat.
Lemma cross_length mask : forall a b, length a = length mask -> length b = length mask -> length (cross mask a b) = length mask.
Proof.
  induction mask as [|m mask IH]; intros [|p a] [|q b]; cbn; intros; try discriminate; [reflexivity|]. f_equal. apply IH; congruence.
Qed.
Lemma mutation_length x : forall i draws, length (mutation_from i draws x) = length x.
Proof. induction x as [|b x IH]; intros i draws; cbn; [reflexivity|]. destruct draws as [|[v|] d]; cbn; auto. Qed.

Definition pool_sized (p : pool) : Prop := length (pl_bastert p) = n /\ length (pl_random p) = n /\ forall e, In e (pl_data p) -> length (e_x e) = n /\ 0 <= e_remaining e.
Lemma x_at_length p r id y : x_at p r = Some (id, y) -> pool_sized p -> length y = n.
Proof.
  unfold x_at. destruct (nth_error (pl_indices p) r) as [i|]; cbn; [|discriminate].
  destruct (nth_error (pl_data p) i) as [e|] eqn:E; cbn; [|discriminate]. intros H (_ & _ & Hd). inversion H. apply Hd. eapply nth_error_In; eassumption.
Qed.
Lemma reinit_sized p a x p' a' kappa x' : reinit fo op p a x p' a' kappa x' -> pool_sized p -> length x = n -> pool_sized p' /\ length x' = n.
Proof.
  intros H Hp Hx. pose proof (reinit_data _ _ _ _ _ _ _ H) as (_ & Eb & Er & Ed). split.
  - destruct Hp as (H1 & H2 & H3). split; [congruence|]. split; [rewrite Er; congruence|]. intros e He.
    destruct Ed as [E|(_ & id & z & Hz & E)]; [rewrite E in He; auto|].
    destruct (list_modify_in _ _ _ _ _ E He) as [He'|(b & Hb & ->)]; [auto|]. cbn. specialize (H3 _ Hb). split; [|apply H3]. destruct Hz as [->|Hz]; congruence.
  - assert (Hm : forall draws y, length y = n -> length (if op_mutation op then mutation_from 0 draws y else y) = n)
      by (intros; destruct (op_mutation op); [rewrite mutation_length|]; assumption).
    destruct H as [|p a x p' y draws x' Ha Hc Hx']; subst x'; apply Hm; [assumption|].
    destruct Hc as [p x r id y mask Hi Ha' Hl| |p x r id y mask rnd Hi Ha' Hl Hr| |p x r1 id1 y1 r2 id2 y2 mask A1 A2 Hne Hl]; try assumption.
    + rewrite cross_length; [congruence| |].
      * rewrite (x_at_length _ _ _ _ Ha' Hp). congruence.
      * destruct Hp as (-> & _). congruence.
    + rewrite cross_length; [congruence| |congruence]. rewrite (x_at_length _ _ _ _ Ha' Hp). congruence.
    + rewrite cross_length; [congruence| |]; [rewrite (x_at_length _ _ _ _ A1 Hp)|rewrite (x_at_length _ _ _ _ A2 Hp)]; congruence.
Qed.

(** ** Rounds *)
Variable cl : solver_class.
Hypothesis Hrows : forall r, In r cs -> row_ok n r.

Definition event_ok (ev : event) : Prop :=
  match ev with
  | ev_update x v _ => length x = n /\ violations cs x = 0 /\ v = objective_value (as_assignment x) obj
  | ev_advance x r _ => length x = n /\ 0 < r /\ (r <= violations cs x \/ r = int_max)
  end.
Section Round.
Variables (sv : solver F) (c : nat -> list bool -> option F) (after : list (rc F)) (x0 : list bool) (g0 : G) (s0 : state F G).
Hypothesis Hmk : make_solver fo cl cs n c mode after x0 g0 = Ok (sv, s0).
Local Notation run_exact := (run_exact fo ro std_sort cl cs n c mode after x0 g0 sv s0 Hmk Hrows).

Lemma stopped_x (s : state F G) b s' : stopped ro s = (b, s') -> s_x s' = s_x s.
Proof. unfold stopped. destruct (rg_time_out ro (s_g s)) as [t g]. intros H; inversion H. reflexivity. Qed.
Lemma update_ok (s : state F G) v loop : length (s_x s) = n -> violations cs (s_x s) = 0 -> results obj (s_x s) = Some v -> event_ok (ev_update (s_x s) v loop).
Proof. intros H1 H2 H3. apply results_ok in H3. cbn. auto. Qed.

Lemma find_loop_ok pa : forall fuel i br kappa od s br' ev od' s',
  find_loop fo ro std_sort obj fuel sv pa i br kappa od s = Finished (br', ev, od', s') -> length (s_x s) = n ->
  (br <= violations cs (s_x s) \/ br = int_max) ->
  length (s_x s') = n /\ Forall event_ok ev /\ (br' <= violations cs (s_x s') \/ br' = int_max).
Proof.
  induction fuel as [|fuel IH]; intros i br kappa od s br' ev od' s'; cbn [find_loop]; [discriminate|].
  destruct (stopped ro s) as [b s1] eqn:Es. apply stopped_x in Es. intros H Hx Hbr. rewrite <- Es in Hx, Hbr.
  destruct (b || (i =? pa_limit pa)). { inversion H; subst. auto. }
  destruct (run fo ro std_sort sv None kappa (pa_delta pa) (pa_theta pa) od s1) as [[[r od2] s2]|] eqn:Er; [|discriminate].
  destruct (run_exact _ _ _ _ _ _ _ _ _ Hx Er) as [Hx2 Hr]. destruct (Z.eqb_spec r 0) as [E|E].
  - destruct (results obj (s_x s2)) as [v|] eqn:Ev; [|discriminate]. inversion H; subst. split; [assumption|]. split; [|pose proof (violations_nonneg cs (s_x s')); lia]. constructor; [|constructor].
    apply update_ok; congruence.
  - assert (Hm : Z.min r br <= violations cs (s_x s2) \/ Z.min r br = int_max) by lia.
    destruct (fl_lt fo _ _). { inversion H; subst. auto. } eapply IH; eassumption.
Qed.
Lemma push_runs_ok pa : forall k push iter kappa od s ev od' s',
  push_runs fo ro std_sort obj k sv pa push iter kappa od s = Some (ev, od', s') -> length (s_x s) = n ->
  length (s_x s') = n /\ Forall event_ok ev.
Proof.
  induction k as [|k IH]; intros push iter kappa od s ev od' s'; cbn [push_runs]. { intros H; inversion H; subst. auto. }
  destruct (stopped ro s) as [b s1] eqn:Es. apply stopped_x in Es. intros H Hx. rewrite <- Es in Hx.
  destruct b. { inversion H; subst. auto. }
  destruct (run fo ro std_sort sv None kappa (pa_delta pa) (pa_theta pa) od s1) as [[[r od2] s2]|] eqn:Er; cbn [bind] in H; [|discriminate].
  destruct (run_exact _ _ _ _ _ _ _ _ _ Hx Er) as [Hx2 Hr]. destruct (Z.eqb_spec r 0) as [E|E].
  - destruct (results obj (s_x s2)) as [v|] eqn:Ev; cbn [bind] in H; [|discriminate]. inversion H; subst. split; [assumption|]. constructor; [|constructor].
    apply update_ok; congruence.
  - destruct (fl_lt fo _ _). { inversion H; subst. auto. } eapply IH; eassumption.
Qed.
Lemma pushes_ok pa : forall k push kappa od s ev od' s',
  pushes fo ro std_sort obj k sv pa push kappa od s = Some (ev, od', s') -> length (s_x s) = n ->
  length (s_x s') = n /\ Forall event_ok ev.
Proof.
  induction k as [|k IH]; intros push kappa od s ev od' s'; cbn [pushes]. { intros H; inversion H; subst. auto. }
  destruct (stopped ro s) as [b s1] eqn:Es. apply stopped_x in Es. intros H Hx. rewrite <- Es in Hx.
  destruct b. { inversion H; subst. auto. }
  destruct (run _ _ _ _ _ _ _ _ _ _) as [[[r od2] s2]|] eqn:Er; cbn [bind] in H; [|discriminate].
  destruct (run_exact _ _ _ _ _ _ _ _ _ Hx Er) as [Hx2 Hr].
  match type of H with bind ?e _ = _ => destruct e as [ev0|] eqn:E0; cbn [bind] in H; [|discriminate] end.
  assert (H0 : Forall event_ok ev0).
  { destruct (Z.eqb_spec r 0) as [E|E]; [|inversion E0; constructor]. destruct (results obj (s_x s2)) as [v|] eqn:Ev; cbn [bind] in E0; [|discriminate].
    inversion E0. constructor; [|constructor]. apply update_ok; congruence. }
  destruct (push_runs _ _ _ _ _ _ _ _ _ _ _ _) as [[[ev1 od3] s3]|] eqn:E1; cbn [bind] in H; [|discriminate].
  destruct (push_runs_ok _ _ _ _ _ _ _ _ _ _ E1 Hx2) as [Hx3 H1].
  destruct (pushes _ _ _ _ k _ _ _ _ _ _) as [[[ev2 od4] s4]|] eqn:E2; cbn [bind] in H; [|discriminate].
  destruct (IH _ _ _ _ _ _ _ E2 Hx3) as [Hx4 H2]. inversion H; subst. split; [assumption|]. rewrite !Forall_app. auto.
Qed.
Lemma round_ok fuel pa kappa od s ev od' s' : round fo ro std_sort obj fuel sv pa kappa od s = Finished (ev, od', s') -> length (s_x s) = n ->
  length (s_x s') = n /\ Forall event_ok ev.
Proof.
  unfold round. destruct (order_init sv (s_x s) od) as [od1|]; [|discriminate].
  destruct (find_loop _ _ _ _ _ _ _ _ _ _ _ _) as [[[[br ev1] od2] s2]| |] eqn:E1; try discriminate. intros H Hx.
  destruct (find_loop_ok _ _ _ _ _ _ _ _ _ _ _ E1 Hx (or_intror eq_refl)) as (Hx2 & H1 & Hbr). destruct (Z.ltb_spec 0 br).
  - inversion H; subst. split; [assumption|]. rewrite Forall_app. split; [assumption|]. constructor; [|constructor]. cbn. auto.
  - destruct (pushes _ _ _ _ _ _ _ _ _ _ _) as [[[ev2 od3] s3]|] eqn:E2; [|discriminate].
    destruct (pushes_ok _ _ _ _ _ _ _ _ _ E2 Hx2) as [Hx3 H2]. inversion H; subst. split; [assumption|]. rewrite Forall_app. auto.
Qed.
End Round.

(** ** Every interleaving keeps the workers and the sizes in order *)
Definition entry_ok := truthful obj cs n.
Definition pc_ok (pc : wpc) : Prop :=
  match pc with
  | W_top | W_done => True
  | W_events evs | W_sort evs => Forall event_ok evs
  | W_pick new rest => entry_ok new /\ Forall event_ok rest
  | W_write k _ new rest => entry_ok new /\ Forall event_ok rest /\ (k <= 5)%nat
  end.
Definition worker_ok (w : worker F G) : Prop :=
  (exists c after x0 (g : G) s0, make_solver fo cl cs n c mode after x0 g = Ok (wk_sv w, s0)) /\ length (s_x (wk_s w)) = n /\ pc_ok (wk_pc w).
Lemma entry_of_ok d ev new : entry_of hash obj d ev = Some new -> event_ok ev -> entry_ok new.
Proof.
  destruct ev as [x v loop|x r loop]; cbn.
  - intros H (H1 & H2 & H3). inversion H. unfold entry_ok, truthful. cbn. repeat (split; [auto with zarith|]). left. lia.
  - destruct (results obj x) as [v|] eqn:E; cbn; [|discriminate]. intros H (H1 & H2 & H3). inversion H. unfold entry_ok, truthful. cbn.
    apply results_ok in E. repeat (split; [assumption|]). lia.
Qed.
Lemma write_field_x k new old : length (e_x new) = n /\ 0 <= e_remaining new -> length (e_x old) = n /\ 0 <= e_remaining old ->
  length (e_x (write_field k new old)) = n /\ 0 <= e_remaining (write_field k new old).
Proof. intros. do 6 (destruct k as [|k]; [cbn; tauto|]). cbn; tauto. Qed.
Lemma wstep_ok free p w p' w' : wstep free p w p' w' -> pool_sized p -> worker_ok w -> pool_sized p' /\ worker_ok w'.
Proof.
  intros H Hp (Hsv & Hx & Hpc). destruct H as [p w E|p w p' a kappa x fuel evs od s E Hre Hro|p w E|p w ev rest E Hc|p w ev rest d new E Hc He
    |p w new rest r id E Hr Hid|p w k id new rest data E Hm|p w rest p' E Hf Hs]; rewrite E in Hpc; unfold worker_ok, with_pc; cbn [wk_pc wk_sv wk_s pc_ok].
  - tauto.
  - destruct (reinit_sized _ _ _ _ _ _ _ Hre Hp Hx) as [Hp' Hx']. split; [assumption|]. destruct Hsv as (c & after & x0 & g & s0 & Hmk).
    destruct (round_ok _ _ _ _ _ _ Hmk _ _ _ _ _ _ _ _ Hro Hx') as [Hx2 Hev]. eauto 10.
  - tauto.
  - inversion Hpc; subst. auto.
  - inversion Hpc; subst. pose proof (entry_of_ok _ _ _ He H1). auto.
  - destruct Hpc as [Hn Hrest]. repeat (split; [assumption|]). lia.
  - destruct Hpc as (Hn & Hrest & Hk). split.
    + destruct Hp as (P1 & P2 & P3). split; [assumption|]. split; [assumption|]. cbn. intros e He.
      destruct (list_modify_in _ _ _ _ _ Hm He) as [He'|(b & Hb & ->)]; [auto|]. apply write_field_x; [split; apply Hn|auto].
    + split; [assumption|]. split; [assumption|]. destruct (Nat.ltb_spec k 5); cbn; auto.
  - split; [|auto]. apply pool_sort_fields in Hs. destruct Hs as (E1 & E2 & E3 & _). destruct Hp as (P1 & P2 & P3). unfold pool_sized. rewrite E1, E2, E3. auto.
Qed.
Definition sys_ok (s : sys F G) : Prop := pool_sized (sy_pool s) /\ forall w, In w (sy_workers s) -> worker_ok w.
Lemma step_ok s s' : step s s' -> sys_ok s -> sys_ok s'.
Proof.
  intros H [Hp Hw]. destruct H as [s i w p' w' l Hi Hs Hl]. destruct (wstep_ok _ _ _ _ _ Hs Hp (Hw _ (nth_error_In _ _ Hi))) as [Hp' Hw'].
  split; [assumption|]. cbn. intros w1 H1. destruct (list_upd_in _ _ _ _ _ Hl H1) as [->|]; auto.
Qed.

(** ** Truthful entries *)
Definition agrees (k : nat) (new e : entry) : Prop :=
  ((0 < k)%nat -> e_x e = e_x new) /\ ((1 < k)%nat -> e_value e = e_value new) /\ ((2 < k)%nat -> e_duration e = e_duration new) /\
  ((3 < k)%nat -> e_hash e = e_hash new) /\ ((4 < k)%nat -> e_loop e = e_loop new) /\ ((5 < k)%nat -> e_remaining e = e_remaining new).
Lemma agrees_0 new e : agrees 0 new e.
Proof. unfold agrees. repeat split; lia. Qed.
Lemma agrees_6 new e : agrees 6 new e -> e = new.
Proof.
  intros (H1 & H2 & H3 & H4 & H5 & H6). destruct e, new. cbn in *. f_equal; [apply H1|apply H2|apply H3|apply H4|apply H5|apply H6]; lia.
Qed.
Lemma agrees_write k new e : (k <= 5)%nat -> agrees k new e -> agrees (S k) new (write_field k new e).
Proof.
  intros Hk (H1 & H2 & H3 & H4 & H5 & H6). unfold agrees.
  do 6 (destruct k as [|k]; [cbn; repeat split; intros; try reflexivity; try lia; auto with arith|]). lia.
Qed.
Definition honest (s : sys F G) : Prop :=
  (forall id e, nth_error (pl_data (sy_pool s)) id = Some e -> entry_ok e \/
     exists i w k new rest, nth_error (sy_workers s) i = Some w /\ wk_pc w = W_write (S k) id new rest) /\
  (forall i w k id new rest, nth_error (sy_workers s) i = Some w -> wk_pc w = W_write k id new rest ->
     exists e, nth_error (pl_data (sy_pool s)) id = Some e /\ agrees k new e).

(** Moving a worker that is not writing changes nothing. *)
Lemma honest_move s i w w' p' l : honest s -> nth_error (sy_workers s) i = Some w -> list_upd (sy_workers s) i w' = Some l ->
  pl_data p' = pl_data (sy_pool s) -> (forall k id new rest, wk_pc w <> W_write (S k) id new rest) ->
  (forall k id new rest, wk_pc w' = W_write k id new rest -> k = 0%nat /\ exists e, nth_error (pl_data (sy_pool s)) id = Some e) -> honest (mk_sys p' l).
Proof.
  intros [H1 H2] Hi Hl Hd Hw Hw'. split; cbn [sy_pool sy_workers]; rewrite Hd.
  - intros id e He. destruct (H1 id e He) as [?|(j & v & k & new & rest & Hj & Hv)]; [auto|]. right.
    exists j, v, k, new, rest. split; [|assumption]. rewrite (list_upd_nth _ _ _ _ _ Hl). destruct (Nat.eqb_spec j i) as [E|E]; [|assumption].
    exfalso. rewrite E, Hi in Hj. inversion Hj; subst v. exact (Hw _ _ _ _ Hv).
  - intros j v k id new rest Hj Hv. rewrite (list_upd_nth _ _ _ _ _ Hl) in Hj. destruct (Nat.eqb_spec j i) as [E|E]; [|eauto].
    inversion Hj; subst v. destruct (Hw' _ _ _ _ Hv) as [-> (e & He)]. exists e. split; [assumption|apply agrees_0].
Qed.
Lemma step_honest s s' : op_insertion op = false -> step s s' -> sys_ok s -> well_formed (length (pl_data (sy_pool s))) (sy_pool s) ->
  no_shared_victim s -> honest s -> honest s'.
Proof.
  intros Hins H [Hp Hw] Hwf Hns Hh. destruct H as [s i w p' w' l Hi Hs Hl]. specialize (Hw _ (nth_error_In _ _ Hi)). destruct Hw as (_ & _ & Hpc).
  remember (sy_pool s) as q eqn:Epool.
  destruct Hs as [p w E|p w p' a kappa x fuel evs od st E Hre Hro|p w E|p w ev rest E Hc|p w ev rest d new E Hc He
    |p w new rest r id E Hr Hid|p w k id new rest data E Hm|p w rest p' E Hf Hs].
  - eapply honest_move; try eassumption; intros; unfold with_pc in *; cbn [wk_pc] in *; congruence.
  - eapply honest_move; try eassumption; try (intros; cbn in *; congruence).
    apply reinit_data in Hre. destruct Hre as (_ & _ & _ & [X|[X _]]); congruence.
  - eapply honest_move; try eassumption; intros; unfold with_pc in *; cbn [wk_pc] in *; congruence.
  - eapply honest_move; try eassumption; intros; unfold with_pc in *; cbn [wk_pc] in *; congruence.
  - eapply honest_move; try eassumption; intros; unfold with_pc in *; cbn [wk_pc] in *; congruence.
  - eapply honest_move; try eassumption; [congruence|intros; congruence|]. intros k' id' new' rest' Hw'. unfold with_pc in Hw'; cbn in Hw'. inversion Hw'; subst k' id' new' rest'.
    split; [reflexivity|]. rewrite <- Epool. destruct Hwf as [_ W2]. apply nth_error_In in Hid. apply (Permutation_in _ W2) in Hid. apply in_seq in Hid.
    destruct (nth_error (pl_data p) id) as [e|] eqn:Ee; [eauto|]. apply nth_error_None in Ee. lia.
  - destruct Hh as [H1 H2]. rewrite <- Epool in H1, H2. rewrite E in Hpc. destruct Hpc as (Hn & _ & Hk). destruct (H2 _ _ _ _ _ _ Hi E) as (e0 & He0 & Hag).
    pose proof (agrees_write _ _ _ Hk Hag) as Hag'.
    assert (Hother : forall j v k' id' new' rest', j <> i -> nth_error (sy_workers s) j = Some v -> wk_pc v = W_write k' id' new' rest' -> id' <> id).
    { intros j v k' id' new' rest' Hne Hj Hv ->. apply (Hns i j w v id); auto; unfold victim; [rewrite E|rewrite Hv]; reflexivity. }
    split; cbn [sy_pool sy_workers pl_data].
    + intros id' e' He'. rewrite (list_modify_nth _ _ _ _ _ Hm) in He'. destruct (Nat.eqb_spec id' id) as [Eid|Eid].
      * rewrite He0 in He'. cbn in He'. inversion He'; subst e'. destruct (Nat.ltb_spec k 5) as [L|L].
        -- right. exists i. eexists _, k, new, rest. split; [rewrite (list_upd_nth _ _ _ _ _ Hl), Nat.eqb_refl; reflexivity|].
           subst id'. reflexivity.
        -- left. assert (Ek : k = 5%nat) by lia. subst k. apply agrees_6 in Hag'. rewrite Hag'. assumption.
      * destruct (H1 id' e' He') as [?|(j & v & k' & new' & rest' & Hj & Hv)]; [auto|]. right. exists j, v, k', new', rest'. split; [|assumption].
        rewrite (list_upd_nth _ _ _ _ _ Hl). destruct (Nat.eqb_spec j i) as [Ej|Ej]; [|assumption]. exfalso. rewrite Ej, Hi in Hj. inversion Hj; subst v. congruence.
    + intros j v k' id' new' rest' Hj Hv. rewrite (list_upd_nth _ _ _ _ _ Hl) in Hj. rewrite (list_modify_nth _ _ _ _ _ Hm).
      destruct (Nat.eqb_spec j i) as [Ej|Ej].
      * inversion Hj; subst v. unfold with_pc in Hv; cbn [wk_pc] in Hv. destruct (Nat.ltb k 5); [|discriminate]. inversion Hv; subst k' id' new' rest'.
        rewrite Nat.eqb_refl, He0. cbn. eauto.
      * destruct (Nat.eqb_spec id' id) as [Eid|Eid]; [exfalso; eapply Hother; eassumption|]. eauto.
  - eapply honest_move; try eassumption; try (intros; unfold with_pc in *; cbn in *; congruence).
    apply pool_sort_fields in Hs. destruct Hs as (-> & _). congruence.
Qed.

(** The constructor of the pool. *)
Lemma row_value_ok x l : forall s v, row_value x l s = Some v -> v = s + lhs (as_assignment x) l.
Proof.
  induction l as [|e l IH]; intros s v; cbn [row_value lhs]. { intros H; inversion H. cbn. lia. }
  destruct (nth_error x (f_var e)) as [b|] eqn:Eb; cbn [bind]; [|discriminate]. intros H. apply IH in H. rewrite H.
  unfold lhs. cbn [map fold_right]. unfold as_assignment at 2. rewrite (nth_error_nth _ _ _ Eb). unfold bz. destruct b; cbn; lia.
Qed.
Lemma count_unsatisfied_ok x l : forall k r, count_unsatisfied x l k = Some r -> r = k + violations l x.
Proof.
  unfold violations. induction l as [|c l IH]; intros k r; cbn [count_unsatisfied filter]. { intros H; inversion H. cbn. lia. }
  destruct (row_value x (m_elements c) 0) as [v|] eqn:Ev; cbn [bind]; [|discriminate]. apply row_value_ok in Ev. cbn [Z.add] in Ev.
  intros H. apply IH in H. rewrite H. unfold violates at 2. rewrite <- Ev. destruct ((m_min c <=? v) && (v <=? m_max c)); cbn [negb length]; lia.
Qed.
Lemma initial_entry_ok x e : initial_entry hash obj cs x = Some e -> length x = n -> entry_ok e /\ e_remaining e = violations cs x /\ e_x e = x.
Proof.
  unfold initial_entry. destruct (results obj x) as [v|] eqn:Ev; cbn [bind]; [|discriminate].
  destruct (count_unsatisfied x cs 0) as [r|] eqn:Er; cbn [bind]; [|discriminate]. intros H Hx. inversion H; subst e. apply results_ok in Ev.
  apply count_unsatisfied_ok in Er. unfold entry_ok, truthful. cbn. pose proof (violations_nonneg cs x). repeat split; try assumption; lia.
Qed.
Lemma make_pool_ok bastert xs p : make_pool std_sort hash mode obj cs bastert xs = Some p -> length bastert = n -> (forall x, In x xs -> length x = n) ->
  pool_sized p /\ forall e, In e (pl_data p) -> entry_ok e.
Proof.
  unfold make_pool. destruct (initial_entries hash obj cs xs) as [d|] eqn:E; cbn [bind]; [|discriminate]. intros H Hb Hx.
  apply pool_sort_fields in H. cbn in H. destruct H as (E1 & E2 & E3 & _). apply initial_entries_ok in E. destruct E as [_ E].
  assert (Hd : forall e, In e d -> entry_ok e).
  { intros e He. destruct (E e He) as (x & Hxs & Ex). eapply initial_entry_ok; eauto. }
  split; [|rewrite E1; assumption]. unfold pool_sized. rewrite E1, E2, E3, repeat_length. repeat split; try assumption; apply Hd; assumption.
Qed.
Lemma make_solver_x c after x0 g sv s : make_solver fo cl cs n c mode after x0 g = Ok (sv, s) -> s_x (G := G) s = x0.
Proof.
  unfold make_solver. destruct (of_opt _) as [ap| |]; try discriminate. destruct (solver_ctor cl cs) as [b| |]; try discriminate.
  intros H; inversion H. reflexivity.
Qed.
Lemma starts_ok (w : worker F G) : starts fo op cl cs n mode w -> worker_ok w.
Proof.
  intros (c & after & g & s & Hmk & Hw). split; [eauto 10|].
  assert (Hsx : s_x s = repeat false n) by (eapply make_solver_x; eassumption).
  rewrite Hw. cbn. rewrite Hsx, repeat_length. auto.
Qed.
Lemma initial_honest p ws : (forall e, In e (pl_data p) -> entry_ok e) -> (forall w, In w ws -> wk_pc w = W_top) -> honest (mk_sys (G := G) (F := F) p ws).
Proof.
  intros H1 H2. split; cbn.
  - intros id e He. left. apply H1. eapply nth_error_In; eassumption.
  - intros i w k id new rest Hi Hw. apply nth_error_In in Hi. rewrite (H2 _ Hi) in Hw. discriminate.
Qed.
Lemma run_honest bastert xs p0 ws s : op_insertion op = false ->
  make_pool std_sort hash mode obj cs bastert xs = Some p0 -> length bastert = n -> (forall x, In x xs -> length x = n) ->
  (forall w, In w ws -> starts fo op cl cs n mode w) ->
  steps step no_shared_victim (mk_sys p0 ws) s -> returned s -> forall e, In e (pl_data (sy_pool s)) -> entry_ok e.
Proof.
  intros Hins Hp Hb Hx Hw Hsteps Hret e He. pose proof (make_pool_wf _ _ _ Hp) as Hwf. destruct (make_pool_ok _ _ _ Hp Hb Hx) as [Hps He0].
  assert (HI : (sys_ok s /\ well_formed (length xs) (sy_pool s)) /\ honest s).
  { eapply steps_inv with (I := fun s => (sys_ok s /\ well_formed (length xs) (sy_pool s)) /\ honest s); [exact Hsteps| |].
    - intros a b ((H1 & H2) & H3) Hq _ Hab. split; [split; [eapply step_ok; eassumption|eapply step_wf; eassumption]|].
      eapply step_honest; try eassumption. destruct H2 as [H2 H2']. rewrite H2. split; assumption.
    - split; [split; [split; [assumption|cbn; intros; apply starts_ok; auto]|assumption]|]. apply initial_honest; [assumption|].
      intros w Hw'. destruct (Hw w Hw') as (c & after & g & s1 & _ & ->). reflexivity. }
  destruct HI as [_ [HI _]]. apply In_nth_error in He. destruct He as [id He]. destruct (HI id e He) as [?|(i & w & k & new & rest & Hi & Hpc)]; [assumption|].
  apply nth_error_In in Hi. rewrite (Hret _ Hi) in Hpc. discriminate.
Qed.
End PoolProofs.
