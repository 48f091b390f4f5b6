(** Property theorems C38-C40 and C64-C66: the optimizer. *)
From Coq Require Import String Permutation Sorted.
From Verif Require Import Base Problem_model Problem_spec Merged_model Merged_spec Merged_proofs Classify_model Matrix_model
  Rows_model Rows_spec Rows_proofs Rows_props Validate_model Solver_model Solver_spec Solver_proofs Solver_proofs2 Solver_props
  Pool_model Pool_spec Pool_proofs Pool_proofs2 Pool_proofs3.
Open Scope Z_scope.

(** ** C38. The pool *)
(** Whatever the interleaving, the pool keeps its size and each entry keeps one rank. *)
Theorem C38_pool_keeps_size :
  forall (F G : Type) (fo : fops F) (ro : rops G) std_sort hash, permutes std_sort ->
  forall mode obj cs op bastert xs p0 ws s,
  make_pool std_sort hash mode obj cs bastert xs = Some p0 ->
  steps (step fo ro std_sort hash mode obj op) any (mk_sys p0 ws) s ->
  well_formed (length xs) (sy_pool s).
Proof.
  intros F G fo ro std_sort hash Hperm mode obj cs op bastert xs p0 ws s Hp Hst.
  apply (steps_inv _ _ (fun s => well_formed (length xs) (sy_pool s)) _ _ Hst).
  - intros a b H1 _ _ Hab. eapply step_wf; eassumption.
  - eapply make_pool_wf; eassumption.
Qed.
Print Assumptions C38_pool_keeps_size.

(** When two workers are never inserting at the same time, the best entry of the pool (the
    one of rank 0) never gets worse. Missing: concurrent insertions, see C38_refuted. *)
Theorem C38_best_never_worse_partial :
  forall (F G : Type) (fo : fops F) (ro : rops G) std_sort hash, permutes std_sort -> sorts std_sort ->
  forall mode obj cs op bastert xs p0 ws s s' f f',
  make_pool std_sort hash mode obj cs bastert xs = Some p0 -> (5 <= length xs)%nat ->
  (forall w, In w ws -> wk_pc w = W_top) ->
  steps (step fo ro std_sort hash mode obj op) one_insertion (mk_sys p0 ws) s ->
  steps (step fo ro std_sort hash mode obj op) one_insertion s s' ->
  get_best (sy_pool s) 0 = Some f -> get_best (sy_pool s') 0 = Some f' -> ~ strictly_better mode f f'.
Proof.
  intros F G fo ro std_sort hash Hperm Hsort mode obj cs op bastert xs p0 ws s s' f f' Hp Hl Hws H1 H2 Hf Hf'.
  destruct (steps_not_front fo ro std_sort hash Hperm mode obj op (length xs) Hl _ _ H1) as [W N].
  - eapply make_pool_wf; eassumption.
  - intros i w k id new rest Hi. cbn in Hi. rewrite (Hws w (nth_error_In _ _ Hi)). discriminate.
  - eapply steps_best with (size := length xs); eassumption.
Qed.
Print Assumptions C38_best_never_worse_partial.

(** ** C39. optimize() *)
(** When the crossover never writes in the pool (init_crossover_bastert_insertion is 0) and
    two workers never replace the same entry at the same time: if the result says
    success, its first solution satisfies the constraints, and its value is the objective
    there. For all the solver classes. Missing: the other values of the parameter and shared victims, where it is false
    (C39_refuted, C39_refuted_torn). *)
Theorem C39_success_is_feasible_partial :
  forall (F G : Type) (fo : fops F) (ro : rops G) std_sort ddiv hash, permutes std_sort ->
  forall po pb cs op cl bastert xs p0 ws s r,
  let n := length (v_values (p_vars pb)) in
  row_indices_ok pb -> distinct_vars pb ->
  make_merged std_sort ddiv po pb = Ok cs -> op_insertion op = false ->
  make_pool std_sort hash (p_type pb) (p_objective pb) cs bastert xs = Some p0 ->
  length bastert = n -> (forall x, In x xs -> length x = n) ->
  (forall w, In w ws -> starts fo op cl cs n (p_type pb) w) ->
  steps (step fo ro std_sort hash (p_type pb) (p_objective pb) op) no_shared_victim (mk_sys p0 ws) s ->
  returned s ->
  final_result (op_storage op) n (length cs) (sy_pool s) = Some r -> or_status r = st_success ->
  exists x v l, or_solutions r = (x, v) :: l /\ length x = n /\
    (fits_int (as_assignment x) pb -> feasible (as_assignment x) pb) /\
    v = objective_value (as_assignment x) (p_objective pb).
Proof.
  intros F G fo ro std_sort ddiv hash Hperm po pb cs op cl bastert xs p0 ws s r n Hi Hd Hm Hins Hp Hb Hx Hw Hst Hret Hfr Hsu.
  pose proof (merged_rows_ok std_sort ddiv Hperm po pb cs Hi Hd Hm) as Hrows.
  pose proof (run_honest fo ro std_sort hash Hperm (p_type pb) (p_objective pb) cs op n cl Hrows _ _ _ _ _ Hins Hp Hb Hx Hw Hst Hret) as Hall.
  unfold final_result in Hfr. destruct (get_best (sy_pool s) 0) as [f|] eqn:Ef; cbn [bind] in Hfr; [|discriminate].
  assert (Hin : In f (pl_data (sy_pool s))).
  { unfold get_best in Ef. destruct (nth_error _ 0) as [k|]; cbn [bind] in Ef; [|discriminate]. eapply nth_error_In; eassumption. }
  destruct (Hall _ Hin) as (H1 & H2 & H3 & H4 & _).
  match type of Hfr with bind ?e _ = _ => destruct e as [sols|] eqn:Es; cbn [bind] in Hfr; [|discriminate] end.
  inversion Hfr; subst r. cbn [or_status or_solutions] in *. destruct (Z.eqb_spec (e_remaining f) 0) as [E0|]; [|discriminate].
  assert (Hhd : exists l, sols = (e_x f, e_value f) :: l).
  { assert (Hc : convert n f = Some (e_x f, e_value f)). { unfold convert. rewrite H1, Nat.leb_refl, <- H1, firstn_all. reflexivity. }
    destruct (op_storage op); cbn [best_solutions] in Es; rewrite ?Ef in Es; cbn [bind] in Es; rewrite ?Hc in Es; cbn [bind] in Es.
    - inversion Es. eauto.
    - destruct (get_worst _) as [w|]; cbn [bind] in Es; [|discriminate]. destruct (convert n w) as [b|]; cbn [bind] in Es; [|discriminate]. inversion Es. eauto.
    - repeat (match type of Es with bind ?e _ = _ => destruct e; cbn [bind] in Es; [|discriminate] end). inversion Es. eauto. }
  destruct Hhd as [l Hl]. exists (e_x f), (e_value f), l. split; [assumption|]. split; [assumption|]. split; [|assumption]. intros Hfit.
  rewrite <- (merged_meaning std_sort ddiv Hperm po pb cs _ Hm Hfit). intros d Hdi. specialize (H4 E0). rewrite violations_0 in H4. apply (H4 d Hdi).
Qed.
Print Assumptions C39_success_is_feasible_partial.

(** ** C64. One worker *)
(** With one worker: every solution it finds is still there at the end, or a better one is: a
    worker has [ev_update x v loop] to send each time the assignment after a sweep
    satisfies all rows. *)
Theorem C64_one_worker_keeps_best_partial :
  forall (F G : Type) (fo : fops F) (ro : rops G) std_sort hash, permutes std_sort -> sorts std_sort ->
  forall mode obj cs op cl n bastert xs p0 w s s' x v loop r m,
  (forall r, In r cs -> row_ok n r) ->
  make_pool std_sort hash mode obj cs bastert xs = Some p0 -> (5 <= length xs)%nat ->
  length bastert = n -> (forall x, In x xs -> length x = n) ->
  starts fo op cl cs n mode w ->
  steps (step fo ro std_sort hash mode obj op) any (mk_sys p0 [w]) s -> has_to_send s (ev_update x v loop) ->
  steps (step fo ro std_sort hash mode obj op) any s s' -> returned s' ->
  final_result (op_storage op) n m (sy_pool s') = Some r ->
  or_status r = st_success /\ exists x' v' l, or_solutions r = (x', v') :: l /\ ~ better_value mode v v'.
Proof.
  intros F G fo ro std_sort hash Hperm Hsort mode obj cs op cl n bastert xs p0 w s s' x v loop r m Hrows Hp Hl Hb Hx Hw H1 Hsend H2 Hret Hfr.
  pose proof (start_solo fo std_sort hash Hperm Hsort mode obj cs op (length xs) Hl n cl _ _ _ w Hp Hb Hx eq_refl Hw) as Hsolo.
  destruct (steps_solo fo ro std_sort hash Hperm Hsort mode obj cs op (length xs) Hl n cl Hrows _ _ H1 eq_refl Hsolo) as [Ha Hs].
  destruct Hsend as (u & evs & Hu & Hpc & Hev).
  assert (Hc : covered mode (sy_pool s) (wk_pc u) v). { rewrite Hpc. left. exists x, loop. assumption. }
  pose proof (steps_covered fo ro std_sort hash Hperm Hsort mode obj cs op (length xs) Hl n cl Hrows _ _ _ _ H2 Ha Hs Hu Hc) as Hcov.
  destruct (steps_solo fo ro std_sort hash Hperm Hsort mode obj cs op (length xs) Hl n cl Hrows _ _ H2 Ha Hs) as [Ha' Hs'].
  unfold alone in Ha'. destruct (sy_workers s') as [|u' [|? ?]] eqn:Eu; try discriminate.
  assert (Hu' : In u' (sy_workers s')) by (rewrite Eu; left; reflexivity). specialize (Hcov u' (or_introl eq_refl)). rewrite (Hret u' Hu') in Hcov.
  destruct Hcov as (f & Hf & E0 & Hv). unfold final_result in Hfr. rewrite Hf in Hfr. cbn [bind] in Hfr.
  match type of Hfr with bind ?e _ = _ => destruct e as [sols|] eqn:Es; cbn [bind] in Hfr; [|discriminate] end.
  inversion Hfr; subst r. cbn [or_status or_solutions]. rewrite E0. split; [reflexivity|].
  assert (Hhd : exists x' l, sols = (x', e_value f) :: l); [|destruct Hhd as (x' & l & E); eauto 6].
  assert (Hc' : forall a, convert n f = Some a -> exists x', a = (x', e_value f)). { unfold convert. destruct (Nat.leb _ _); [|discriminate]. intros a H; inversion H. eauto. }
  destruct (op_storage op); cbn [best_solutions] in Es; rewrite ?Hf in Es; cbn [bind] in Es; destruct (convert n f) as [a|]; cbn [bind] in Es; try discriminate; destruct (Hc' _ eq_refl) as [x' ->].
  - inversion Es. eauto.
  - destruct (get_worst _) as [w'|]; cbn [bind] in Es; [|discriminate]. destruct (convert n w') as [b|]; cbn [bind] in Es; [|discriminate]. inversion Es. eauto.
  - repeat (match type of Es with bind ?e _ = _ => destruct e; cbn [bind] in Es; [|discriminate] end). inversion Es. eauto.
Qed.
Print Assumptions C64_one_worker_keeps_best_partial.

(** ** C66. The solutions returned *)
(** Whatever the interleaving: the solutions returned are entries of the final pool, the first
    is such that no entry is better, [five] gives five in order, and the second
    of [bound] is such that no solution of the pool is worse. The number of remaining
    constraints reported is the one of the first. *)
Theorem C66_solutions_are_ranked :
  forall (F G : Type) (fo : fops F) (ro : rops G) std_sort hash, permutes std_sort -> sorts std_sort ->
  forall mode obj cs op cl n bastert xs p0 ws s r m,
  (forall r, In r cs -> row_ok n r) ->
  make_pool std_sort hash mode obj cs bastert xs = Some p0 ->
  length bastert = n -> (forall x, In x xs -> length x = n) ->
  (forall w, In w ws -> starts fo op cl cs n mode w) ->
  steps (step fo ro std_sort hash mode obj op) any (mk_sys p0 ws) s -> returned s ->
  final_result (op_storage op) n m (sy_pool s) = Some r ->
  exists es first, or_solutions r = map (fun e => (e_x e, e_value e)) es /\ nth_error es 0 = Some first /\ or_remaining r = e_remaining first /\
    (forall e, In e es -> In e (pl_data (sy_pool s))) /\ (forall e, In e (pl_data (sy_pool s)) -> ~ strictly_better mode e first) /\
    match op_storage op with
    | sto_one => length es = 1%nat
    | sto_bound => exists worst, es = [first; worst] /\ (forall e, In e (pl_data (sy_pool s)) -> e_remaining e = 0 -> ~ strictly_better mode worst e)
    | sto_five => length es = 5%nat /\ StronglySorted (fun a b => ~ strictly_better mode b a) es /\
                  exists others, Permutation (es ++ others) (pl_data (sy_pool s)) /\ forall e o, In e es -> In o others -> ~ strictly_better mode o e
    end.
Proof.
  intros F G fo ro std_sort hash Hperm Hsort mode obj cs op cl n bastert xs p0 ws s r m Hrows Hp Hb Hx Hw Hst Hret Hfr.
  destruct (end_sorted fo ro std_sort hash Hperm Hsort mode obj cs op (length xs) _ _ _ _ _ Hp eq_refl Hst Hret) as [Hwf Hrk].
  destruct (make_pool_ok std_sort hash mode obj cs n _ _ _ Hp Hb Hx) as [Hps _].
  assert (Hok : sys_ok fo mode obj cs n cl s).
  { apply (steps_inv _ _ (fun s => sys_ok fo mode obj cs n cl s) _ _ Hst).
    - intros a b H1 _ _ Hab. eapply step_ok; eassumption.
    - split; [assumption|]. intros w Hw'. eapply starts_ok. apply Hw. assumption. }
  destruct Hok as [(_ & _ & Hsz) _].
  assert (Hlen : forall e, In e (pl_data (sy_pool s)) -> length (e_x e) = n) by (intros e He; apply (Hsz e He)).
  assert (Hnn : forall e, In e (pl_data (sy_pool s)) -> 0 <= e_remaining e) by (intros e He; apply (Hsz e He)).
  pose proof (ranking_perm (length xs) _ Hwf) as Hpm. pose proof (ranking_sorted mode _ Hrk) as Hss.
  unfold final_result in Hfr. destruct (get_best (sy_pool s) 0) as [f|] eqn:Ef; cbn [bind] in Hfr; [|discriminate].
  pose proof Ef as Ef'. apply (ranking_best (length xs) _ _ _ Hwf) in Ef'.
  match type of Hfr with bind ?e _ = _ => destruct e as [sols|] eqn:Es; cbn [bind] in Hfr; [|discriminate] end.
  inversion Hfr; subst r. cbn [or_solutions or_remaining].
  assert (Hbest : forall e, In e (pl_data (sy_pool s)) -> ~ strictly_better mode e f).
  { intros e He. apply (Permutation_in _ (Permutation_sym Hpm)) in He. destruct (ranking (sy_pool s)) as [|a l]; [discriminate|]. cbn in Ef'. inversion Ef'; subst a.
    apply StronglySorted_inv in Hss. destruct Hss as [_ Hf]. destruct He as [<-|He]; [apply not_better_refl|]. rewrite Forall_forall in Hf. auto. }
  assert (Hfin : In f (pl_data (sy_pool s))). { eapply Permutation_in; [exact Hpm|]. eapply nth_error_In; eassumption. }
  assert (Hcv : forall e, In e (pl_data (sy_pool s)) -> convert n e = Some (e_x e, e_value e)).
  { intros e He. unfold convert. rewrite (Hlen e He), Nat.leb_refl, <- (Hlen e He), firstn_all. reflexivity. }
  assert (Hbs : forall k, best_solutions (sy_pool s) n 0 (S k) = Some sols ->
    sols = map (fun e => (e_x e, e_value e)) (firstn (S k) (ranking (sy_pool s))) /\ length (firstn (S k) (ranking (sy_pool s))) = S k /\
    nth_error (firstn (S k) (ranking (sy_pool s))) 0 = Some f /\ (forall e, In e (firstn (S k) (ranking (sy_pool s))) -> In e (pl_data (sy_pool s)))).
  { intros k Hk. destruct (best_solutions_ok (length xs) _ n Hwf Hlen _ _ _ Hk) as [E1 E2]. cbn [skipn] in E1. split; [assumption|].
    split; [rewrite E1, map_length in E2; exact E2|]. split.
    - destruct (ranking (sy_pool s)); [discriminate|]. exact Ef'.
    - intros e He. eapply Permutation_in; [exact Hpm|]. rewrite <- (firstn_skipn (S k)). apply in_or_app. auto. }
  destruct (op_storage op).
  - destruct (Hbs 0%nat Es) as (B1 & B2 & B3 & B4). eexists _, f. split; [exact B1|]. auto 10.
  - rewrite (Hcv f Hfin) in Es. cbn [bind] in Es. destruct (get_worst (sy_pool s)) as [w|] eqn:Ew; cbn [bind] in Es; [|discriminate].
    destruct (worst_ok mode (length xs) _ _ Hwf Hnn Hrk Ew) as [W1 W2]. rewrite (Hcv w W1) in Es. cbn [bind] in Es. inversion Es.
    exists [f; w], f. split; [reflexivity|]. split; [reflexivity|]. split; [reflexivity|]. split; [intros e [<-|[<-|[]]]; assumption|]. split; [assumption|]. exists w. split; [reflexivity|assumption].
  - destruct (Hbs 4%nat Es) as (B1 & B2 & B3 & B4). exists (firstn 5 (ranking (sy_pool s))), f. split; [exact B1|]. split; [exact B3|]. split; [reflexivity|].
    split; [exact B4|]. split; [assumption|]. split; [exact B2|].
    assert (Hsp : forall l1 l2 : list entry, StronglySorted (fun a b => ~ strictly_better mode b a) (l1 ++ l2) ->
              StronglySorted (fun a b => ~ strictly_better mode b a) l1 /\ forall e o, In e l1 -> In o l2 -> ~ strictly_better mode o e).
    { induction l1 as [|a l1 IH]; intros l2 H; [split; [constructor|intros e o []]|]. cbn in H. apply StronglySorted_inv in H. destruct H as [H1 H2].
      destruct (IH _ H1) as [I1 I2]. rewrite Forall_forall in H2. split.
      - constructor; [assumption|]. apply Forall_forall. intros b Hb'. apply H2. apply in_or_app. auto.
      - intros e o [<-|He] Ho; [apply H2; apply in_or_app; auto|auto]. }
    rewrite <- (firstn_skipn 5 (ranking (sy_pool s))) in Hss. destruct (Hsp _ _ Hss) as [S1 S2]. split; [exact S1|].
    exists (skipn 5 (ranking (sy_pool s))). split; [rewrite firstn_skipn; exact Hpm|exact S2].
Qed.
Print Assumptions C66_solutions_are_ranked.

(** ** C40. Seeds *)
(** The last seed differs from every other but the first; and when the first values
    drawn are pairwise distinct, so are the seeds (the probability of the contrary with t workers is
    about t^2 / 2^65). Missing: see C40_refuted. *)
Theorem C40_seeds_partial :
  forall (draw : nat -> Z) fuel threads, (1 < threads)%nat ->
  (forall l, generate_seed draw fuel threads = Finished l -> length l = threads /\
     forall m, (0 < m < threads - 1)%nat -> nth_error l m <> nth_error l (threads - 1)) /\
  ((threads <= fuel)%nat -> (forall a b, (a < threads)%nat -> (b < threads)%nat -> draw a = draw b -> a = b) ->
     exists l, generate_seed draw fuel threads = Finished l /\ length l = threads /\ NoDup l).
Proof.
  intros draw fuel threads Ht. split.
  - intros l H. apply generate_seed_last in H; assumption.
  - intros Hf Hinj. exists (map draw (seq 0 threads)). split; [apply generate_seed_distinct; [lia|assumption|assumption]|].
    split; [rewrite map_length, seq_length; reflexivity|apply map_draw_nodup; assumption].
Qed.
Print Assumptions C40_seeds_partial.
Example C40_hyps : generate_seed (fun k => Z.of_nat k * 7) 10 4 = Finished [0; 7; 14; 21] /\
  generate_seed (fun k => nth k [1; 2; 2; 5; 8] 0) 10 4 = Finished [1; 5; 2; 8].
Proof. split; vm_compute; reflexivity. Qed.
(** The first seed is never compared, and a seed drawn again is not compared with those
    before. *)
Theorem C40_refuted :
  (exists (draw : nat -> Z) fuel l, generate_seed draw fuel 2 = Finished l /\ ~ NoDup l) /\
  (exists (draw : nat -> Z) fuel l, generate_seed draw fuel 4 = Finished l /\ draw 0%nat <> draw 1%nat /\
     (exists i j, i <> 0%nat /\ j <> 0%nat /\ i <> j /\ (i < 4)%nat /\ (j < 4)%nat /\ nth_error l i = nth_error l j)).
Proof.
  split.
  - exists (fun _ => 5), 10%nat. eexists. split; [vm_compute; reflexivity|]. intros H. inversion H as [|? ? H1 _]. apply H1. left. reflexivity.
  - exists (fun k => nth k [1; 2; 3; 2; 3] 0), 20%nat. eexists. split; [vm_compute; reflexivity|]. split; [discriminate|].
    exists 1%nat, 2%nat. repeat split; try lia.
Qed.
Print Assumptions C40_refuted.

(** ** Concrete runs *)
(** minimize x0 + 2 x1 + 3 x2 with x0 + x1 + x2 = 1, a pool of five entries at 0. *)
Definition ex_pool_pb : problem :=
  mk_problem (mk_objective [mk_oelem 1 0; mk_oelem 2 1; mk_oelem 3 2] [] 0)
    [mk_constraint (str "a") [mk_felem 1 0; mk_felem 1 1; mk_felem 1 2] 1 0] [] []
    (mk_variables [str "x"; str "y"; str "z"] (repeat (mk_variable_value 0 1 vt_binary) 3)) (mk_affected [] []) minimize equalities_01.
Definition ex_pool_rows : list merged := [mk_merged [mk_felem 1 0; mk_felem 1 1; mk_felem 1 2] 1 1 0].
Definition ex_hash (x : list bool) : Z := fold_right (fun (b : bool) a => 2 * a + (if b then 1 else 0)) 1 x.
Definition ex_oparams (insertion : bool) (st : storage_type) : oparams Z := mk_oparams Z (ex_params 5 0 100 co_none) 0 1 3 insertion false st.
Definition ex_worker {G} (op : oparams Z) cl obj cs n (g : G) : option (worker Z G) :=
  match make_solver ex_fops cl cs n (fun v _ => original_cost ex_fops obj n v) minimize [] (repeat false n) g with
  | Ok (sv, s) => Some (mk_worker W_top 0 (make_order (pa_order (op_s op)) n) sv s)
  | _ => None end.
Fixpoint ex_workers {G} (op : oparams Z) cl obj cs n (gs : list G) : option (list (worker Z G)) :=
  match gs with
  | [] => Some []
  | g :: gs' => do w <- ex_worker op cl obj cs n g; do r <- ex_workers op cl obj cs n gs'; Some (w :: r)
  end.
Lemma ex_workers_start {G} op cl obj cs n (gs : list G) l : ex_workers op cl obj cs n gs = Some l ->
  forall w, In w l -> starts_as ex_fops op cl cs n minimize (fun v _ => original_cost ex_fops obj n v) w.
Proof.
  revert l. induction gs as [|g gs IH]; cbn; intros l; [intros H; inversion H; intros w []|].
  destruct (ex_worker op cl obj cs n g) as [w0|] eqn:E; cbn; [|discriminate]. destruct (ex_workers op cl obj cs n gs) as [r|]; cbn; [|discriminate].
  intros H; inversion H. intros w [<-|Hw]; [|eapply IH; eauto]. unfold ex_worker in E. destruct (make_solver _ _ _ _ _ _ _ _ _) as [[sv s]| |] eqn:Em; try discriminate.
  inversion E. exists [], g, s. split; [exact Em|reflexivity].
Qed.
(** The pool and the workers at the beginning of optimize(). *)
Definition ex_begin {G} (ro : rops G) (pb : problem) cs op cl (g : G) (gs : list G) : option (sys Z G) :=
  let n := length (v_values (p_vars pb)) in
  do (p, _) <- make_storage ex_fops ro insertion_sort ex_hash minimize (p_objective pb) cs 5 n g;
  do ws <- ex_workers op cl (p_objective pb) cs n gs; Some (mk_sys p ws).
Lemma ex_begin_ok {G} (ro : rops G) pb cs op cl (g : G) gs s : ex_begin ro pb cs op cl g gs = Some s ->
  p_type pb = minimize -> o_qelements (p_objective pb) = [] -> begins ex_fops ro insertion_sort ex_hash pb cs op cl 5 s.
Proof.
  unfold ex_begin, begins. intros H Ht Hq. rewrite Ht. set (n := length _) in *. split; [exact Hq|].
  destruct (make_storage _ _ _ _ _ _ _ _ _ _) as [[p g']|] eqn:Ep; cbn [bind] in H; [|discriminate].
  destruct (ex_workers _ _ _ _ _ _) as [ws|] eqn:Ew; cbn [bind] in H; [|discriminate]. injection H as <-.
  split; [exists g, g'; exact Ep|]. intros w Hw. eapply ex_workers_start; eassumption.
Qed.
Definition writes (i : nat) : list (nat * action) := repeat (i, A_write) 6.

Example ex_pool_pb_ok : indices_ok ex_pool_pb /\ distinct_vars ex_pool_pb /\ make_merged insertion_sort Z.div po_none ex_pool_pb = Ok ex_pool_rows /\
  (forall r, In r ex_pool_rows -> row_ok 3 r) /\ (forall x, fits_int x ex_pool_pb).
Proof.
  assert (Hi : indices_ok ex_pool_pb).
  { repeat split.
    + intros c H. repeat (destruct H as [<-|H]; [discriminate|]). destruct H.
    + intros c e H He. repeat (destruct H as [<-|H]; [cbn in He; repeat (destruct He as [<-|He]; [cbn; lia|]); destruct He|]). destruct H.
    + intros e He. cbn in He. repeat (destruct He as [<-|He]; [cbn; lia|]). destruct He. }
  assert (Hd : distinct_vars ex_pool_pb). { intros c H. repeat (destruct H as [<-|H]; [cbn; repeat constructor; cbn; intuition discriminate|]). destruct H. }
  assert (Hm : make_merged insertion_sort Z.div po_none ex_pool_pb = Ok ex_pool_rows) by (vm_compute; reflexivity).
  split; [exact Hi|]. split; [exact Hd|]. split; [exact Hm|]. split; [exact (merged_rows_ok _ _ ex_sort_permutes _ _ _ (proj1 (proj2 Hi)) Hd Hm)|].
  intros x c H. repeat (destruct H as [<-|H]; [cbn; destruct (x 0%nat), (x 1%nat), (x 2%nat); vm_compute; split; discriminate|]). destruct H.
Qed.

(** One worker, one round, one insertion: the hypotheses of C38, C39, C64, C65 and C66 are met. *)
Definition ex_solo_round : list (nat * action) := [(0%nat, A_round None [] 20)].
Definition ex_solo_rest : list (nat * action) := ([(0, A_event 0); (0, A_pick 4)] ++ writes 0 ++ (0, A_sort) :: repeat (0, A_event 0) 4 ++ [(0, A_end); (0, A_stop)])%nat.
Example C38_C39_C64_hyps :
  exists s0 w s s' r,
    let op := ex_oparams false sto_five in
    begins ex_fops ex_rops insertion_sort ex_hash ex_pool_pb ex_pool_rows op S_equalities_01 5 s0 /\ sy_workers s0 = [w] /\ wk_pc w = W_top /\
    (forall Q : sys Z unit -> Prop, (forall t, length (sy_workers t) = 1%nat -> Q t) ->
      steps (step ex_fops ex_rops insertion_sort ex_hash minimize (p_objective ex_pool_pb) op) Q s0 s /\
      steps (step ex_fops ex_rops insertion_sort ex_hash minimize (p_objective ex_pool_pb) op) Q s s') /\
    has_to_send s (ev_update [true; false; false] 1 0) /\ returned s' /\
    final_result sto_five 3 1 (sy_pool s') = Some r /\ or_status r = st_success /\ nth_error (or_solutions r) 0 = Some ([true; false; false], 1).
Proof.
  destruct (ex_begin ex_rops ex_pool_pb ex_pool_rows (ex_oparams false sto_five) S_equalities_01 tt [tt]) as [s0|] eqn:E0; [|vm_compute in E0; discriminate].
  destruct (exec ex_fops ex_rops insertion_sort ex_hash minimize (p_objective ex_pool_pb) (ex_oparams false sto_five) ex_solo_round s0) as [s|] eqn:E1;
    [|vm_compute in E0; inversion E0; subst s0; vm_compute in E1; discriminate].
  destruct (exec ex_fops ex_rops insertion_sort ex_hash minimize (p_objective ex_pool_pb) (ex_oparams false sto_five) ex_solo_rest s) as [s'|] eqn:E2;
    [|vm_compute in E0; inversion E0; subst s0; vm_compute in E1; inversion E1; subst s; vm_compute in E2; discriminate].
  destruct (final_result sto_five 3 1 (sy_pool s')) as [r|] eqn:Er;
    [|vm_compute in E0; inversion E0; subst s0; vm_compute in E1; inversion E1; subst s; vm_compute in E2; inversion E2; subst s'; vm_compute in Er; discriminate].
  pose proof (ex_begin_ok _ _ _ _ _ _ _ _ E0 eq_refl eq_refl) as Hst.
  assert (Hw : exists w, sy_workers s0 = [w] /\ wk_pc w = W_top). { vm_compute in E0. injection E0 as <-. eexists. split; reflexivity. }
  destruct Hw as (w & Hw1 & Hw2). assert (Hl : length (sy_workers s0) = 1%nat) by (rewrite Hw1; reflexivity).
  exists s0, w, s, s', r. split; [exact Hst|]. split; [exact Hw1|]. split; [exact Hw2|].
  split.
  { intros Q HQ. split.
    - eapply exec_alone; [exact HQ|exact Hl|exact E1].
    - eapply exec_alone; [exact HQ|rewrite (exec_length _ _ _ _ _ _ _ _ _ _ E1); exact Hl|exact E2]. }
  clear Hst Hw1 Hw2 Hl. vm_compute in E0; inversion E0; subst s0; vm_compute in E1; inversion E1; subst s; vm_compute in E2; inversion E2; subst s'; vm_compute in Er.
  inversion Er; subst r. split; [|split].
  - eexists _, _. split; [left; reflexivity|]. split; [reflexivity|]. left. reflexivity.
  - intros u [<-|[]]. reflexivity.
  - repeat split.
Qed.

(** *** C38 and C64 fail with two workers *)
(** minimize x0 + x1 + x2 with x0 + x1 = 1 and x1 + x2 = 1: the solutions are x1, of value 1, and x0, x2, of value 2. *)
Definition ex_race_pb : problem :=
  mk_problem (mk_objective [mk_oelem 1 0; mk_oelem 1 1; mk_oelem 1 2] [] 0)
    [mk_constraint (str "a") [mk_felem 1 0; mk_felem 1 1] 1 0; mk_constraint (str "b") [mk_felem 1 1; mk_felem 1 2] 1 1] [] []
    (mk_variables [str "x"; str "y"; str "z"] (repeat (mk_variable_value 0 1 vt_binary) 3)) (mk_affected [] []) minimize equalities_01.
Definition ex_race_rows : list merged := [mk_merged [mk_felem 1 0; mk_felem 1 1] 1 1 0; mk_merged [mk_felem 1 1; mk_felem 1 2] 1 1 1].
(** An engine whose shuffle reverses a list or not, the first flag says if this alternates. *)
Definition ex_flip_rops : rops (bool * bool) :=
  mk_rops (bool * bool) (fun A g l => (if snd g then rev l else l, (fst g, xorb (fst g) (snd g)))) (fun g => (false, g)) (fun g => (false, g)) (fun g => (false, g)).
Lemma ex_flip_shuffles : shuffles ex_flip_rops.
Proof. intros A [a []] l; cbn; [symmetry; apply Permutation_rev|apply Permutation_refl]. Qed.
(** Both find a solution and choose entry 4; the second writes its solution of value 1, sorts (it is now the
    best) and ends; the first then overwrites it with its own of value 2, which is returned. *)
Definition ex_race_1 : list (nat * action) :=
  ([(0, A_round None [] 20); (1, A_round None [] 20); (0, A_event 0); (1, A_event 0); (0, A_pick 4); (1, A_pick 4)] ++ writes 1 ++
   (1, A_sort) :: repeat (1, A_event 0) 4 ++ [(1, A_end); (1, A_stop)])%nat.
Definition ex_race_2 : list (nat * action) := (writes 0 ++ (0, A_sort) :: repeat (0, A_event 0) 4 ++ [(0, A_end); (0, A_stop)])%nat.
Definition ex_race_start := ex_begin ex_flip_rops ex_race_pb ex_race_rows (ex_oparams false sto_one) S_equalities_01 (false, false) [(true, false); (false, true)].
Theorem C38_refuted :
  exists (F G : Type) (fo : fops F) (ro : rops G) std_sort ddiv hash po pb cs op cl s0 s s' f f' r,
    let n := length (v_values (p_vars pb)) in
    permutes std_sort /\ sorts std_sort /\ shuffles ro /\ make_merged std_sort ddiv po pb = Ok cs /\
    begins fo ro std_sort hash pb cs op cl 5 s0 /\ length (sy_workers s0) = 2%nat /\
    steps (step fo ro std_sort hash (p_type pb) (p_objective pb) op) any s0 s /\
    steps (step fo ro std_sort hash (p_type pb) (p_objective pb) op) any s s' /\ returned s' /\
    get_best (sy_pool s) 0 = Some f /\ get_best (sy_pool s') 0 = Some f' /\ strictly_better (p_type pb) f f' /\
    truthful (p_objective pb) cs n f /\ e_remaining f = 0 /\ final_result (op_storage op) n (length cs) (sy_pool s') = Some r /\ or_solutions r = [(e_x f', e_value f')].
Proof.
  destruct ex_race_start as [s0|] eqn:E0; [|vm_compute in E0; discriminate].
  destruct (exec ex_fops ex_flip_rops insertion_sort ex_hash minimize (p_objective ex_race_pb) (ex_oparams false sto_one) ex_race_1 s0) as [s|] eqn:E1;
    [|vm_compute in E0; inversion E0; subst s0; vm_compute in E1; discriminate].
  destruct (exec ex_fops ex_flip_rops insertion_sort ex_hash minimize (p_objective ex_race_pb) (ex_oparams false sto_one) ex_race_2 s) as [s'|] eqn:E2;
    [|vm_compute in E0; inversion E0; subst s0; vm_compute in E1; inversion E1; subst s; vm_compute in E2; discriminate].
  exists Z, (bool * bool)%type, ex_fops, ex_flip_rops, insertion_sort, Z.div, ex_hash, po_none, ex_race_pb, ex_race_rows, (ex_oparams false sto_one), S_equalities_01, s0, s, s'.
  pose proof (ex_begin_ok _ _ _ _ _ _ _ _ E0 eq_refl eq_refl) as Hst.
  pose proof (exec_ok ex_fops ex_flip_rops insertion_sort ex_hash minimize (p_objective ex_race_pb) (ex_oparams false sto_one) any _ (fun _ => I) _ _ E1 _ (steps_refl _ _ _ I)) as S1.
  pose proof (exec_ok ex_fops ex_flip_rops insertion_sort ex_hash minimize (p_objective ex_race_pb) (ex_oparams false sto_one) any _ (fun _ => I) _ _ E2 _ (steps_refl _ _ _ I)) as S2.
  assert (HH : length (sy_workers s0) = 2%nat /\ exists f f' r, returned s' /\ get_best (sy_pool s) 0 = Some f /\ get_best (sy_pool s') 0 = Some f' /\ strictly_better minimize f f' /\
    truthful (p_objective ex_race_pb) ex_race_rows 3 f /\ e_remaining f = 0 /\ final_result sto_one 3 2 (sy_pool s') = Some r /\ or_solutions r = [(e_x f', e_value f')]).
  { clear S1 S2 Hst. vm_compute in E0; inversion E0; subst s0; vm_compute in E1; inversion E1; subst s; vm_compute in E2; inversion E2; subst s'. split; [reflexivity|].
    eexists _, _, _. split; [intros u [<-|[<-|[]]]; reflexivity|]. split; [vm_compute; reflexivity|]. split; [vm_compute; reflexivity|].
    split; [right; split; reflexivity|]. split; [|split; [reflexivity|split; vm_compute; reflexivity]]. split; [reflexivity|]. split; [reflexivity|]. split; [cbn; lia|]. split; [reflexivity|]. left. vm_compute. discriminate. }
  destruct HH as (HL & f & f' & r & H1 & H2 & H3 & H4 & H5 & H6 & H7 & H8). exists f, f', r. cbv zeta.
  split; [exact ex_sort_permutes|]. split; [exact insertion_sort_sorts|]. split; [exact ex_flip_shuffles|]. split; [vm_compute; reflexivity|]. split; [exact Hst|]. split; [exact HL|].
  split; [exact S1|]. split; [exact S2|]. auto 12.
Qed.
Print Assumptions C38_refuted.
(** C64 fails with several workers: in the same run, the solution of value 1 was sent, and the
    value returned is 2. *)
Definition ex_race_0 : list (nat * action) := firstn 2 ex_race_1.
Theorem C64_refuted :
  exists (F G : Type) (fo : fops F) (ro : rops G) std_sort ddiv hash po pb cs op cl s0 s s' x v loop r v',
    let n := length (v_values (p_vars pb)) in
    permutes std_sort /\ sorts std_sort /\ shuffles ro /\ make_merged std_sort ddiv po pb = Ok cs /\
    begins fo ro std_sort hash pb cs op cl 5 s0 /\ length (sy_workers s0) = 2%nat /\
    steps (step fo ro std_sort hash (p_type pb) (p_objective pb) op) any s0 s /\ has_to_send s (ev_update x v loop) /\
    steps (step fo ro std_sort hash (p_type pb) (p_objective pb) op) any s s' /\ returned s' /\
    final_result (op_storage op) n (length cs) (sy_pool s') = Some r /\ (exists x', or_solutions r = [(x', v')]) /\ better_value (p_type pb) v v'.
Proof.
  destruct ex_race_start as [s0|] eqn:E0; [|vm_compute in E0; discriminate].
  destruct (exec ex_fops ex_flip_rops insertion_sort ex_hash minimize (p_objective ex_race_pb) (ex_oparams false sto_one) ex_race_0 s0) as [s|] eqn:E1;
    [|vm_compute in E0; inversion E0; subst s0; vm_compute in E1; discriminate].
  destruct (exec ex_fops ex_flip_rops insertion_sort ex_hash minimize (p_objective ex_race_pb) (ex_oparams false sto_one) (skipn 2 ex_race_1 ++ ex_race_2) s) as [s'|] eqn:E2;
    [|vm_compute in E0; inversion E0; subst s0; vm_compute in E1; inversion E1; subst s; vm_compute in E2; discriminate].
  exists Z, (bool * bool)%type, ex_fops, ex_flip_rops, insertion_sort, Z.div, ex_hash, po_none, ex_race_pb, ex_race_rows, (ex_oparams false sto_one), S_equalities_01, s0, s, s', [false; true; false], 1, 0.
  pose proof (ex_begin_ok _ _ _ _ _ _ _ _ E0 eq_refl eq_refl) as Hst.
  pose proof (exec_ok ex_fops ex_flip_rops insertion_sort ex_hash minimize (p_objective ex_race_pb) (ex_oparams false sto_one) any _ (fun _ => I) _ _ E1 _ (steps_refl _ _ _ I)) as S1.
  pose proof (exec_ok ex_fops ex_flip_rops insertion_sort ex_hash minimize (p_objective ex_race_pb) (ex_oparams false sto_one) any _ (fun _ => I) _ _ E2 _ (steps_refl _ _ _ I)) as S2.
  assert (HH : length (sy_workers s0) = 2%nat /\ has_to_send s (ev_update [false; true; false] 1 0) /\ returned s' /\ exists r, final_result sto_one 3 2 (sy_pool s') = Some r /\ (exists x', or_solutions r = [(x', 2)])).
  { clear S1 S2 Hst. vm_compute in E0; inversion E0; subst s0; vm_compute in E1; inversion E1; subst s; vm_compute in E2; inversion E2; subst s'.
    split; [reflexivity|]. split; [|split].
    - eexists _, _. split; [right; left; reflexivity|]. split; [reflexivity|]. left. reflexivity.
    - intros u [<-|[<-|[]]]; reflexivity.
    - eexists. split; [vm_compute; reflexivity|]. eexists. reflexivity. }
  destruct HH as (HL & H1 & H2 & r & H3 & H4). exists r, 2. cbv zeta.
  split; [exact ex_sort_permutes|]. split; [exact insertion_sort_sorts|]. split; [exact ex_flip_shuffles|]. split; [vm_compute; reflexivity|]. split; [exact Hst|]. split; [exact HL|].
  split; [exact S1|]. split; [exact H1|]. split; [exact S2|]. split; [exact H2|]. split; [exact H3|]. split; [exact H4|]. reflexivity.
Qed.
Print Assumptions C64_refuted.

(** *** C39 fails *)
(** With one worker: the crossover replaces the assignment of the best entry by the one of
    bastert and leaves its value and its number of remaining constraints. *)
Definition ex_overwrite : list (nat * action) :=
  (let five := repeat (0, A_event 0) 5 ++ [(0, A_end)] in
   [(0, A_round None [] 20); (0, A_event 0); (0, A_pick 4)] ++ writes 0 ++ (0, A_sort) :: repeat (0, A_event 0) 4 ++ [(0, A_end); (0, A_round None [] 20)] ++ five ++
   [(0, A_round None [] 20)] ++ five ++ [(0, A_round (Some (X_bastert_replace 0)) [] 20)] ++ five ++ [(0, A_stop)])%nat.
(** With two workers that replace the same entry, one with the result of an interrupted round, the
    other with a solution: the assignment of the first is left with the rest of the second. *)
Definition ex_bool_rops : rops bool :=
  mk_rops bool (fun A g l => (rev l, g)) (fun g => (false, g)) (fun g => (false, g)) (fun g => (g, g)).
Lemma ex_bool_shuffles : shuffles ex_bool_rops.
Proof. intros A g l. cbn. symmetry. apply Permutation_rev. Qed.
Definition ex_torn : list (nat * action) :=
  ([(0, A_round None [] 20); (1, A_round None [] 20); (0, A_event 0); (1, A_event 0); (0, A_pick 4); (1, A_pick 4);
    (1, A_write)] ++ writes 0 ++ repeat (1, A_write) 5 ++ [(0, A_sort); (1, A_sort); (0, A_end); (0, A_stop)] ++ repeat (1, A_event 0) 4 ++ [(1, A_end); (1, A_stop)])%nat.
Definition optimize_wrong (Q : forall F G, oparams F -> list (worker F G) -> Prop) : Prop :=
  exists (F G : Type) (fo : fops F) (ro : rops G) std_sort ddiv hash po pb cs op cl s0 s r x v,
    let n := length (v_values (p_vars pb)) in
    permutes std_sort /\ sorts std_sort /\ shuffles ro /\ indices_ok pb /\ distinct_vars pb /\ make_merged std_sort ddiv po pb = Ok cs /\
    begins fo ro std_sort hash pb cs op cl 5 s0 /\
    steps (step fo ro std_sort hash (p_type pb) (p_objective pb) op) any s0 s /\ returned s /\
    final_result (op_storage op) n (length cs) (sy_pool s) = Some r /\ or_status r = st_success /\
    or_solutions r = [(x, v)] /\ fits_int (as_assignment x) pb /\ ~ feasible (as_assignment x) pb /\
    v <> objective_value (as_assignment x) (p_objective pb) /\ Q F G op (sy_workers s0).
Theorem C39_refuted : optimize_wrong (fun F G op ws => length ws = 1%nat).
Proof.
  destruct (ex_begin ex_rops ex_pool_pb ex_pool_rows (ex_oparams true sto_one) S_equalities_01 tt [tt]) as [s0|] eqn:E0; [|vm_compute in E0; discriminate].
  destruct (exec ex_fops ex_rops insertion_sort ex_hash minimize (p_objective ex_pool_pb) (ex_oparams true sto_one) ex_overwrite s0) as [s|] eqn:E1;
    [|vm_compute in E0; inversion E0; subst s0; vm_compute in E1; discriminate].
  exists Z, unit, ex_fops, ex_rops, insertion_sort, Z.div, ex_hash, po_none, ex_pool_pb, ex_pool_rows, (ex_oparams true sto_one), S_equalities_01, s0, s.
  pose proof (ex_begin_ok _ _ _ _ _ _ _ _ E0 eq_refl eq_refl) as Hst.
  pose proof (exec_ok ex_fops ex_rops insertion_sort ex_hash minimize (p_objective ex_pool_pb) (ex_oparams true sto_one) any _ (fun _ => I) _ _ E1 _ (steps_refl _ _ _ I)) as S1.
  assert (HH : length (sy_workers s0) = 1%nat /\ returned s /\ exists r, final_result sto_one 3 1 (sy_pool s) = Some r /\ or_status r = st_success /\ or_solutions r = [([false; false; false], 1)]).
  { clear S1 Hst. vm_compute in E0; inversion E0; subst s0; vm_compute in E1; inversion E1; subst s.
    split; [reflexivity|]. split; [intros u [<-|[]]; reflexivity|]. eexists. split; [vm_compute; reflexivity|]. split; reflexivity. }
  destruct HH as (H1 & H2 & r & H3 & H4 & H5). exists r, [false; false; false], 1. destruct ex_pool_pb_ok as (P1 & P2 & P3 & P4 & P5). cbv zeta.
  split; [exact ex_sort_permutes|]. split; [exact insertion_sort_sorts|]. split; [exact ex_shuffles|]. split; [exact P1|]. split; [exact P2|]. split; [exact P3|].
  split; [exact Hst|]. split; [exact S1|]. split; [exact H2|]. split; [exact H3|]. split; [exact H4|]. split; [exact H5|]. split; [apply P5|].
  split; [|split; [vm_compute; discriminate|exact H1]]. intros [Hf _]. specialize (Hf _ (or_introl eq_refl)). vm_compute in Hf. discriminate.
Qed.
Print Assumptions C39_refuted.
Theorem C39_refuted_torn : optimize_wrong (fun F G op ws => op_insertion op = false /\ length ws = 2%nat).
Proof.
  destruct (ex_begin ex_bool_rops ex_pool_pb ex_pool_rows (ex_oparams false sto_one) S_equalities_01 true [true; false]) as [s0|] eqn:E0; [|vm_compute in E0; discriminate].
  destruct (exec ex_fops ex_bool_rops insertion_sort ex_hash minimize (p_objective ex_pool_pb) (ex_oparams false sto_one) ex_torn s0) as [s|] eqn:E1;
    [|vm_compute in E0; inversion E0; subst s0; vm_compute in E1; discriminate].
  exists Z, bool, ex_fops, ex_bool_rops, insertion_sort, Z.div, ex_hash, po_none, ex_pool_pb, ex_pool_rows, (ex_oparams false sto_one), S_equalities_01, s0, s.
  pose proof (ex_begin_ok _ _ _ _ _ _ _ _ E0 eq_refl eq_refl) as Hst.
  pose proof (exec_ok ex_fops ex_bool_rops insertion_sort ex_hash minimize (p_objective ex_pool_pb) (ex_oparams false sto_one) any _ (fun _ => I) _ _ E1 _ (steps_refl _ _ _ I)) as S1.
  assert (HH : length (sy_workers s0) = 2%nat /\ returned s /\ exists r, final_result sto_one 3 1 (sy_pool s) = Some r /\ or_status r = st_success /\ or_solutions r = [([false; false; false], 1)]).
  { clear S1 Hst. vm_compute in E0; inversion E0; subst s0; vm_compute in E1; inversion E1; subst s.
    split; [reflexivity|]. split; [intros u [<-|[<-|[]]]; reflexivity|]. eexists. split; [vm_compute; reflexivity|]. split; reflexivity. }
  destruct HH as (H1 & H2 & r & H3 & H4 & H5). exists r, [false; false; false], 1. destruct ex_pool_pb_ok as (P1 & P2 & P3 & P4 & P5). cbv zeta.
  split; [exact ex_sort_permutes|]. split; [exact insertion_sort_sorts|]. split; [exact ex_bool_shuffles|]. split; [exact P1|]. split; [exact P2|]. split; [exact P3|].
  split; [exact Hst|]. split; [exact S1|]. split; [exact H2|]. split; [exact H3|]. split; [exact H4|]. split; [exact H5|]. split; [apply P5|].
  split; [|split; [vm_compute; discriminate|split; [reflexivity|exact H1]]]. intros [Hf _]. specialize (Hf _ (or_introl eq_refl)). vm_compute in Hf. discriminate.
Qed.
Print Assumptions C39_refuted_torn.

(** ** C65. The number of remaining constraints *)
(** Under the conditions of C39: the number reported is at most the number of rows
    the first solution violates, unless it is INT_MAX, and it is 0 only if it violates none. *)
Theorem C65_remaining_partial :
  forall (F G : Type) (fo : fops F) (ro : rops G) std_sort hash, permutes std_sort ->
  forall mode obj cs op cl n bastert xs p0 ws s r m,
  (forall r, In r cs -> row_ok n r) -> op_insertion op = false ->
  make_pool std_sort hash mode obj cs bastert xs = Some p0 ->
  length bastert = n -> (forall x, In x xs -> length x = n) ->
  (forall w, In w ws -> starts fo op cl cs n mode w) ->
  steps (step fo ro std_sort hash mode obj op) no_shared_victim (mk_sys p0 ws) s -> returned s ->
  final_result (op_storage op) n m (sy_pool s) = Some r ->
  exists x v l, or_solutions r = (x, v) :: l /\ (or_remaining r <= violations cs x \/ or_remaining r = int_max) /\
    (or_remaining r = 0 -> violations cs x = 0).
Proof.
  intros F G fo ro std_sort hash Hperm mode obj cs op cl n bastert xs p0 ws s r m Hrows Hins Hp Hb Hx Hw Hst Hret Hfr.
  pose proof (run_honest fo ro std_sort hash Hperm mode obj cs op n cl Hrows _ _ _ _ _ Hins Hp Hb Hx Hw Hst Hret) as Hall.
  unfold final_result in Hfr. destruct (get_best (sy_pool s) 0) as [f|] eqn:Ef; cbn [bind] in Hfr; [|discriminate].
  assert (Hin : In f (pl_data (sy_pool s))).
  { unfold get_best in Ef. destruct (nth_error _ 0) as [k|]; cbn [bind] in Ef; [|discriminate]. eapply nth_error_In; eassumption. }
  destruct (Hall _ Hin) as (H1 & H2 & H3 & H4 & H5).
  match type of Hfr with bind ?e _ = _ => destruct e as [sols|] eqn:Es; cbn [bind] in Hfr; [|discriminate] end.
  inversion Hfr; subst r. cbn [or_remaining or_solutions].
  assert (Hc : convert n f = Some (e_x f, e_value f)). { unfold convert. rewrite H1, Nat.leb_refl, <- H1, firstn_all. reflexivity. }
  assert (Hhd : exists l, sols = (e_x f, e_value f) :: l).
  { destruct (op_storage op); cbn [best_solutions] in Es; rewrite ?Ef in Es; cbn [bind] in Es; rewrite ?Hc in Es; cbn [bind] in Es.
    - inversion Es. eauto.
    - destruct (get_worst _) as [w|]; cbn [bind] in Es; [|discriminate]. destruct (convert n w) as [b|]; cbn [bind] in Es; [|discriminate]. inversion Es. eauto.
    - repeat (match type of Es with bind ?e _ = _ => destruct e; cbn [bind] in Es; [|discriminate] end). inversion Es. eauto. }
  destruct Hhd as [l Hl]. exists (e_x f), (e_value f), l. auto.
Qed.
Print Assumptions C65_remaining_partial.
(** It is not that number: minimize x0 + 2 x1 with x0 = 0, x1 = 1 and x0 - x1 = 1, one worker and one round of three
    sweeps. A sweep leaves one row violated and the last one two: one is
    reported, with the assignment after the last. *)
Definition ex_stuck_pb : problem :=
  mk_problem (mk_objective [mk_oelem 1 0; mk_oelem 2 1] [] 0)
    [mk_constraint (str "a") [mk_felem 1 0] 0 0; mk_constraint (str "b") [mk_felem 1 1] 1 1;
     mk_constraint (str "c") [mk_felem 1 0; mk_felem (-1) 1] 1 2] [] []
    (mk_variables [str "x"; str "y"] (repeat (mk_variable_value 0 1 vt_binary) 2)) (mk_affected [] []) minimize equalities_101.
Definition ex_stuck_rows : list merged :=
  [mk_merged [mk_felem 1 0] 0 0 0; mk_merged [mk_felem 1 1] 1 1 1; mk_merged [mk_felem 1 0; mk_felem (-1) 1] 1 1 2].
Definition ex_stuck_op : oparams Z := mk_oparams Z (ex_params 3 0 100 co_none) 0 0 3 false false sto_one.
Definition ex_stuck : list (nat * action) := ([(0, A_round None [] 20); (0, A_event 0); (0, A_pick 4)] ++ writes 0 ++ [(0, A_sort); (0, A_end); (0, A_stop)])%nat.
Theorem C65_refuted :
  exists (F G : Type) (fo : fops F) (ro : rops G) std_sort ddiv hash po pb cs op cl s0 s r x v,
    let n := length (v_values (p_vars pb)) in
    permutes std_sort /\ sorts std_sort /\ shuffles ro /\ make_merged std_sort ddiv po pb = Ok cs /\ (forall r, In r cs -> row_ok n r) /\ op_insertion op = false /\
    begins fo ro std_sort hash pb cs op cl 5 s0 /\ length (sy_workers s0) = 1%nat /\
    steps (step fo ro std_sort hash (p_type pb) (p_objective pb) op) any s0 s /\ returned s /\
    final_result (op_storage op) n (length cs) (sy_pool s) = Some r /\ or_solutions r = [(x, v)] /\
    or_remaining r = 1 /\ violations cs x = 2.
Proof.
  destruct (ex_begin ex_rops ex_stuck_pb ex_stuck_rows ex_stuck_op S_equalities_101 tt [tt]) as [s0|] eqn:E0; [|vm_compute in E0; discriminate].
  destruct (exec ex_fops ex_rops insertion_sort ex_hash minimize (p_objective ex_stuck_pb) ex_stuck_op ex_stuck s0) as [s|] eqn:E1;
    [|vm_compute in E0; inversion E0; subst s0; vm_compute in E1; discriminate].
  exists Z, unit, ex_fops, ex_rops, insertion_sort, Z.div, ex_hash, po_none, ex_stuck_pb, ex_stuck_rows, ex_stuck_op, S_equalities_101, s0, s.
  pose proof (ex_begin_ok _ _ _ _ _ _ _ _ E0 eq_refl eq_refl) as Hst.
  pose proof (exec_ok ex_fops ex_rops insertion_sort ex_hash minimize (p_objective ex_stuck_pb) ex_stuck_op any _ (fun _ => I) _ _ E1 _ (steps_refl _ _ _ I)) as S1.
  assert (HH : length (sy_workers s0) = 1%nat /\ returned s /\ exists r x v, final_result sto_one 2 3 (sy_pool s) = Some r /\ or_solutions r = [(x, v)] /\ or_remaining r = 1 /\ violations ex_stuck_rows x = 2).
  { clear S1 Hst. vm_compute in E0; inversion E0; subst s0; vm_compute in E1; inversion E1; subst s.
    split; [reflexivity|]. split; [intros u [<-|[]]; reflexivity|]. eexists _, _, _. split; [vm_compute; reflexivity|]. split; [reflexivity|]. split; reflexivity. }
  destruct HH as (H1 & H2 & r & x & v & H3 & H4 & H5 & H6). exists r, x, v. cbv zeta.
  split; [exact ex_sort_permutes|]. split; [exact insertion_sort_sorts|]. split; [exact ex_shuffles|]. split; [vm_compute; reflexivity|]. split.
  { intros d Hd. repeat (destruct Hd as [<-|Hd]; [split; cbn; [repeat constructor; cbn; intuition discriminate|intros e He; repeat (destruct He as [<-|He]; [cbn; lia|]); destruct He]|]). destruct Hd. }
  split; [reflexivity|]. split; [exact Hst|]. split; [exact H1|]. split; [exact S1|]. auto 8.
Qed.
Print Assumptions C65_refuted.
