(** Property theorem C94: the initial pool of the optimizer. *)
From Coq Require Import String Permutation Sorted.
From Verif Require Import Base Problem_model Problem_spec Merged_model Merged_spec Merged_proofs Classify_model Matrix_model
  Rows_model Rows_spec Rows_proofs Rows_props Validate_model Solver_model Solver_spec Solver_proofs Solver_proofs2 Solver_props
  Pool_model Pool_spec Pool_proofs Pool_proofs2 Pool_proofs3 Pool_props Population_spec Population_proofs.
Open Scope Z_scope.

(** ** C94. The initial pool *)
(** For all costs, rows, sizes and draws, the constructor of the pool reads and writes within its arrays and gives [size] entries, each with
    one value for each variable, the objective there, the exact number of rows violated, and no time nor turn spent. The first of the ranking
    is such that none is better. From two entries on, one is the assignment given by the costs alone. When the
    second half of the entries has an odd number, one has all its variables false. *)
Theorem C94_initial_pool :
  forall (F G : Type) (fo : fops F) (ro : rops G) std_sort hash, permutes std_sort -> sorts std_sort -> shuffles ro ->
  forall mode obj cs n size (g : G), (forall r, In r cs -> row_ok n r) -> objective_in n obj ->
  exists p g', make_storage fo ro std_sort hash mode obj cs size n g = Some (p, g') /\ well_formed size p /\
    (forall e, In e (pl_data p) -> length (e_x e) = n /\ e_value e = objective_value (as_assignment (e_x e)) obj /\
       e_remaining e = violations cs (e_x e) /\ e_hash e = hash (e_x e) /\ e_duration e = 0 /\ e_loop e = 0) /\
    (forall first e, get_best p 0 = Some first -> In e (pl_data p) -> ~ strictly_better mode e first) /\
    length (pl_bastert p) = n /\ costs_alone fo mode obj (pl_bastert p) /\
    ((2 <= size)%nat -> exists e, In e (pl_data p) /\ e_x e = pl_bastert p) /\
    (Nat.Odd (size - size / 2) -> exists e, In e (pl_data p) /\ e_x e = repeat false n).
Proof.
  intros F G fo ro std_sort hash Hperm Hsort Hshuf mode obj cs n size g Hr Ho.
  destruct (population_total fo ro std_sort mode obj cs Hperm Hshuf size n g Hr) as (b & xs & g' & Ep).
  destruct (population_ok fo ro std_sort mode obj cs _ _ _ _ _ _ Ep) as (P1 & P2 & P3 & P4 & P5).
  destruct (make_pool_total std_sort hash mode obj cs n b xs Hr Ho P3) as [p Em].
  exists p, g'. split; [unfold make_storage; rewrite Ep; cbn [bind]; rewrite Em; reflexivity|].
  pose proof (make_pool_wf std_sort hash Hperm mode obj cs b xs p Em) as Hwf. rewrite P2 in Hwf. split; [exact Hwf|].
  pose proof Em as Em'. unfold make_pool in Em'. destruct (initial_entries hash obj cs xs) as [d|] eqn:Ed; cbn [bind] in Em'; [|discriminate].
  pose proof (pool_sort_sorted std_sort Hsort mode _ _ Em') as Hrk. apply pool_sort_fields in Em'. cbn in Em'. destruct Em' as (D1 & D2 & D3 & _).
  assert (Hx : forall x, In x xs -> exists e, In e d /\ e_x e = x).
  { clear - Ed. revert d Ed. induction xs as [|y xs IH]; intros d Ed x; [intros []|]. cbn in Ed. destruct (initial_entry hash obj cs y) as [e|] eqn:Ee; cbn [bind] in Ed; [|discriminate].
    destruct (initial_entries hash obj cs xs) as [l|]; cbn [bind] in Ed; [|discriminate]. injection Ed as <-. intros [<-|Hx].
    - exists e. split; [left; reflexivity|]. unfold initial_entry in Ee. destruct (results obj y); cbn [bind] in Ee; [|discriminate]. destruct (count_unsatisfied y cs 0); cbn [bind] in Ee; [|discriminate]. injection Ee as <-. reflexivity.
    - destruct (IH _ eq_refl x Hx) as (e' & H1 & H2). exists e'. split; [right; assumption|assumption]. }
  rewrite D1, D2. split; [|split; [|split; [|split; [|split]]]].
  - intros e He. destruct (initial_entries_ok hash obj cs xs d Ed) as [_ Hd]. destruct (Hd e He) as (x & Hxs & Ee).
    destruct (initial_entry_ok hash obj cs n x e Ee (P3 x Hxs)) as (E1 & E2 & E3). destruct E1 as (E4 & E5 & _). rewrite <- E3 in E2. split; [assumption|]. split; [assumption|]. split; [assumption|].
    unfold initial_entry in Ee. destruct (results obj x); cbn [bind] in Ee; [|discriminate]. destruct (count_unsatisfied x cs 0); cbn [bind] in Ee; [|discriminate]. injection Ee as <-. repeat split.
  - intros f e Hf He. apply (ranking_best size _ _ _ Hwf) in Hf. pose proof (ranking_perm size _ Hwf) as Hpm. pose proof (ranking_sorted mode _ Hrk) as Hss.
    rewrite <- D1 in He. apply (Permutation_in _ (Permutation_sym Hpm)) in He. destruct (ranking p) as [|a l]; [discriminate|]. cbn in Hf. injection Hf as ->.
    apply StronglySorted_inv in Hss. destruct Hss as [_ Hall]. destruct He as [<-|He]; [apply not_better_refl|]. rewrite Forall_forall in Hall. auto.
  - exact P1.
  - eapply population_costs. exact Ep.
  - intros H2. apply Hx. eapply nth_error_In. apply P4. exact H2.
  - intros Hodd. apply Hx. auto.
Qed.
Print Assumptions C94_initial_pool.

(** minimize -2 x0 + 2 x1 + 3 x2 + x0 x1 + 4 with x0 + x1 + x2 = 1, five entries, an engine that draws true and false in turn. *)
Definition ex_turn_rops : rops bool :=
  mk_rops bool (fun A g l => (rev l, g)) (fun g => (g, negb g)) (fun g => (g, negb g)) (fun g => (false, g)).
Definition ex_initial_obj : objective := mk_objective [mk_oelem (-2) 0; mk_oelem 2 1; mk_oelem 3 2; mk_oelem 0 0] [mk_qelem 1 0 1] 4.
Example C94_hyps : shuffles ex_turn_rops /\ (forall r, In r ex_pool_rows -> row_ok 3 r) /\ objective_in 3 ex_initial_obj /\
  exists p g', make_storage ex_fops ex_turn_rops insertion_sort ex_hash minimize ex_initial_obj ex_pool_rows 5 3 false = Some (p, g') /\
    pl_bastert p = [true; false; false] /\
    map (fun e => (e_x e, e_value e, e_remaining e)) (pl_data p) =
      [([true; false; false], 2, 0); ([false; false; true], 7, 0); ([false; true; false], 6, 0); ([true; false; true], 5, 1); ([false; false; false], 4, 1)] /\
    Nat.Odd (5 - 5 / 2).
Proof.
  split; [intros A g l; cbn; symmetry; apply Permutation_rev|]. split; [exact (proj1 (proj2 (proj2 (proj2 ex_pool_pb_ok))))|]. split.
  { split; intros e He; cbn in He; repeat (destruct He as [<-|He]; [cbn; lia|]); destruct He. }
  eexists _, _. split; [vm_compute; reflexivity|]. split; [reflexivity|]. split; [vm_compute; reflexivity|]. exists 1%nat. reflexivity.
Qed.
