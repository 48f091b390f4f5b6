(** Proofs about what the tool prints about its parameters. *)
From Coq Require Import Ascii String QArith Lqa Qround.
From Verif Require Import Base Problem_model Merged_model Solver_model Params_model Params_spec Params_proofs Writer_model Cli_model Cli_spec Cli_proofs Cli_proofs2
  RInterface_model Announce_model Announce_spec.
Open Scope string_scope.
Open Scope list_scope.
Open Scope Z_scope.

Lemma big_max : (inject_Z long_max <= inject_Z ((2 ^ 53 - 1) * 2 ^ 971))%Q.
Proof. rewrite <- Zle_Qle. vm_compute. discriminate. Qed.
Section Ranges.
Variables (sd : text -> scan dbl) (si sl : text -> scan Z).
Definition any_time (d : dbl) : Prop := d = dofZ (-1) \/ d = NaN \/ positive d.
Definition good (p : params) : Prop := forall n, in_its_range any_time n (field n p).
Lemma default_good : good default_params.
Proof.
  assert (W : forall a b q, (a <= q <= b)%Q -> within a b (Fin q)) by (intros; eexists; split; [reflexivity|assumption]).
  assert (W01 : forall q, (0 <= q)%Q -> (q <= 1)%Q -> within 0 1 (Fin q)) by (intros; apply W; auto).
  assert (Z1 : forall z a b, (a <=? z) && (z <=? b) = true -> a <= z <= b) by (intros; lia).
  intros n. destruct n; cbn [field in_its_range]; try exact I.
  all: try (apply W01; vm_compute; discriminate).
  all: try (apply Z1; vm_compute; reflexivity).
  all: try (left; reflexivity).
  all: try (right; eexists; split; [reflexivity|reflexivity]).
  - apply W; split; vm_compute; discriminate.
  - apply W; split; [vm_compute; discriminate|]. eapply Qle_trans; [|exact big_max]. vm_compute. discriminate.
Qed.
Lemma accepts_range n t v : accepts sd si sl n t v -> in_its_range any_time n v.
Proof.
  intros H. destruct n; cbn [accepts] in H.
  all: try (destruct v; try contradiction; exact I).
  all: try (destruct H as (x & -> & _ & H); cbn [in_its_range]; auto; fail).
  destruct H as (d & _ & ->). cbn [in_its_range]. destruct (dle d (dofZ 0)) eqn:E; [left; reflexivity|].
  destruct d as [| | |q]; try discriminate; [right; left; reflexivity|right; right; left; reflexivity|].
  right. right. right. exists q. split; [reflexivity|]. apply Qnot_le_lt. intros K. change (dofZ 0) with (Fin 0%Q) in E. rewrite (proj2 (dle_fin _ _) K) in E. discriminate.
Qed.
Lemma changes_good n v p p' : good p -> in_its_range any_time n v -> changes n v p p' -> good p'.
Proof.
  intros Hg Hr (H1 & H2 & _) m.
  destruct (list_eq_dec ascii_dec (str (option_name m)) (str (option_name n))) as [E|E].
  - apply option_name_inj in E. subst m. rewrite H1. exact Hr.
  - rewrite H2 by congruence. apply Hg.
Qed.
Lemma assign_good p name v s p' : good p -> assign_parameter sd si sl p name v = (s, p') -> good p'.
Proof.
  intros Hg H. rewrite assign_parameter_find in H. destruct (find _ all_names) as [n|]; [|injection H as <- <-; exact Hg].
  apply assign_one_accepts in H. destruct H as [(-> & x & H1 & H2 & H3 & H4)|(_ & -> & _)]; [|exact Hg].
  eapply (changes_good n x); [exact Hg|eapply accepts_range; exact H1|repeat split; assumption].
Qed.
Lemma same_good p p' : same_fields p p' -> good p -> good p'.
Proof. intros H Hg n. rewrite H. apply Hg. Qed.
Lemma verbose_good a rest m m' : good (mp_params m) -> verbose_step si a rest m = Some m' -> good (mp_params m').
Proof.
  intros H. unfold verbose_step. destruct (get_param a rest "--verbose" "-v") as [[v two]|]; [|intros E; injection E as <-; exact H].
  destruct (assign_int si v 0 6); [|discriminate]. intros E. injection E as <-. exact H.
Qed.
Lemma param_good v m : good (mp_params m) -> good (mp_params (param_step sd si sl v m)).
Proof.
  intros H. unfold param_step. destruct (split_argument v) as [[|c n] [|d w]]; try exact H.
  destruct (assign_parameter sd si sl (mp_params m) (c :: n) (d :: w)) as [s p] eqn:E. apply assign_good in E; [|exact H].
  destruct s; first [exact E|exact H].
Qed.
Lemma turn_good a rest m : good (mp_params m) -> match parse_turn sd si sl a rest m with Next _ m' | Return_ m' => good (mp_params m') end.
Proof.
  intros H. unfold parse_turn.
  destruct (_ || _)%bool; [exact H|]. destruct (_ || _)%bool; [exact H|]. destruct (_ || _)%bool; [exact H|].
  destruct (get_param a rest "--bench" "-b") as [[v two]|]; [exact H|].
  destruct (_ || _)%bool; [apply (same_good (mp_params m)); [intros []; reflexivity|exact H]|].
  destruct (get_param a rest "--auto" "-a") as [[v two]|]; [apply (same_good (mp_params m)); [intros []; reflexivity|exact H]|].
  destruct (verbose_step si a rest m) as [m'|] eqn:E; [|exact H]. apply verbose_good in E; [|exact H].
  destruct (get_param a rest "--check" "-C") as [[v two]|]; [exact E|].
  destruct (get_param a rest "--param" "-p") as [[v two]|].
  - pose proof (param_good v m' E) as K. destruct (mp_status (param_step sd si sl v m')); exact K.
  - destruct (text_eqb a (str "--random")); [apply (same_good (mp_params m')); [intros []; reflexivity|exact E]|].
    destruct (text_eqb a (str "--debug")); [apply (same_good (mp_params m')); [intros []; reflexivity|exact E]|exact E].
Qed.
Lemma parse_good args : forall i sk m, good (mp_params m) -> good (mp_params (parse_from sd si sl i sk args m)).
Proof.
  induction args as [|a rest IH]; intros i sk m H; cbn [parse_from]; [exact H|].
  destruct sk; [apply IH; exact H|]. pose proof (turn_good a rest (set_arg i m) H) as K.
  destruct (parse_turn sd si sl a rest (set_arg i m)); [apply IH; exact K|exact K].
Qed.
Lemma command_line_good args : good (mp_params (parse_args sd si sl args)).
Proof. apply parse_good. exact default_good. Qed.
End Ranges.

(** *** What the library keeps of them *)
Lemma within_weaken a b c d v : (c <= a)%Q -> (b <= d)%Q -> within a b v -> within c d v.
Proof. intros H1 H2 (q & -> & H). exists q. split; [reflexivity|]. split; [eapply Qle_trans; [exact H1|apply H]|eapply Qle_trans; [apply H|exact H2]]. Qed.
Lemma within_force v o : within 0 1 v -> within 0 1 (if is_finite v then dclamp v (dofZ 0) (dofZ 1) else o).
Proof. intros (q & -> & H). apply (clamp_within 0 1); [discriminate|lra]. Qed.
Lemma clamp01 v : within 0 1 v -> within 0 1 (dclamp v (dofZ 0) (dofZ 1)).
Proof. intros (q & -> & H). apply (clamp_within 0 1); [discriminate|lra]. Qed.
Lemma w_force z w : -1 <= z <= long_max -> within 0 (inject_Z ((2 ^ 53 - 1) * 2 ^ 971)) w ->
  within 0 (inject_Z ((2 ^ 53 - 1) * 2 ^ 971))
    (if dlt w (dofZ 0) then dofZ 0
     else if 0 <? z then (if dlt w (dofZ 1) then dmul (dofZ z) w else dmin (dofZ z) w) else dfloor w).
Proof.
  intros Hz (q & -> & Hq). destruct (dlt (Fin q) (dofZ 0)) eqn:E0.
  - exists 0%Q. split; [reflexivity|]. split; [apply Qle_refl|]. eapply Qle_trans; [|exact big_max]. vm_compute. discriminate.
  - clear E0. destruct (0 <? z) eqn:E1.
    + apply Z.ltb_lt in E1. assert (Hz0 : (0 <= inject_Z z)%Q) by (change 0%Q with (inject_Z 0); rewrite <- Zle_Qle; lia).
      assert (Hz1 : (inject_Z z <= inject_Z long_max)%Q) by (rewrite <- Zle_Qle; lia).
      destruct (dlt (Fin q) (dofZ 1)) eqn:E2.
      * change (dofZ 1) with (Fin (inject_Z 1)) in E2. apply dlt_fin in E2. change (inject_Z 1) with 1%Q in E2.
        exists (inject_Z z * q)%Q. split; [reflexivity|]. split.
        -- apply Qmult_le_0_compat; [assumption|apply Hq].
        -- eapply Qle_trans; [|exact big_max]. eapply Qle_trans; [|exact Hz1]. setoid_replace (inject_Z z) with (inject_Z z * 1)%Q at 2 by ring.
           rewrite !(Qmult_comm (inject_Z z)). apply Qmult_le_compat_r; [lra|assumption].
      * unfold dmin. destruct (dlt (Fin q) (dofZ z)).
        -- exists q. split; [reflexivity|exact Hq].
        -- exists (inject_Z z). split; [reflexivity|]. split; [assumption|]. eapply Qle_trans; [exact Hz1|exact big_max].
    + exists (inject_Z (Qfloor q)). split; [reflexivity|]. split.
      * change 0%Q with (inject_Z 0). rewrite <- Zle_Qle. change 0 with (Qfloor 0). apply Qfloor_resp_le. apply Hq.
      * eapply Qle_trans; [apply Qfloor_le|apply Hq].
Qed.
Lemma force_good p : good p -> good (in_force p).
Proof.
  intros H n. pose proof (H n) as Hn. unfold in_force. destruct n; cbn [field in_its_range set_params pm_time_limit pm_theta pm_delta pm_kappa_min pm_kappa_step pm_kappa_max pm_alpha
    pm_pushing_k_factor pm_pushing_objective_amplifier pm_init_policy_random pm_crossover_bastert pm_crossover_mean pm_crossover_stddev pm_mutation_variable_mean
    pm_mutation_variable_stddev pm_mutation_value_mean pm_mutation_value_stddev pm_improve_start pm_improve_increase pm_improve_stop pm_w pm_seed pm_thread pm_limit
    pm_print_level pm_pushes_limit pm_pushing_iteration_limit pm_population_size pm_pre_order pm_order pm_float_type pm_init_policy pm_cost_norm pm_observer pm_storage]
    in Hn |- *; try exact I; try exact Hn; try (apply within_force; exact Hn).
  - destruct (pm_limit p <=? 0) eqn:E; [vm_compute; split; discriminate|lia].
  - destruct (dle (pm_time_limit p) (dofZ 0)); [right; right; left; reflexivity|exact Hn].
  - destruct (0 <=? pm_print_level p); [exact Hn|vm_compute; split; discriminate].
  - destruct (_ && _)%bool; [exact Hn|exact (default_good N_theta)].
  - destruct (_ || _)%bool; [exact Hn|exact (default_good N_delta)].
  - destruct (_ && _)%bool; [exact Hn|exact (default_good N_kappa_min)].
  - destruct (_ && _)%bool; [exact Hn|exact (default_good N_kappa_step)].
  - destruct (_ && _)%bool; [exact Hn|exact (default_good N_kappa_max)].
  - destruct (dle _ _); [exact Hn|exact (default_good N_alpha)].
  - exact (w_force _ _ (H N_limit) Hn).
  - destruct (pm_pushes_limit p <=? 0); [vm_compute; split; discriminate|exact Hn].
  - destruct (is_finite _); [exact Hn|exact (default_good N_pushing_objective_amplifier)].
  - destruct (pm_pushing_iteration_limit p <=? 0); [vm_compute; split; discriminate|exact Hn].
  - destruct (is_finite _); [exact Hn|exact (default_good N_pushing_k_factor)].
  - destruct (5 <=? pm_population_size p); [exact Hn|vm_compute; split; discriminate].
  - apply clamp01. exact Hn.
  - apply clamp01. exact Hn.
  - destruct (clamp01 _ (H N_improve_start)) as (q & E & Hq). cbn [field] in E. rewrite E. destruct Hn as (r & -> & Hr).
    apply (within_weaken q 1); [apply Hq|apply Qle_refl|]. apply (clamp_within q 1); [discriminate|apply Hq].
  - destruct (_ && _)%bool; [exact Hn|exact (default_good N_init_policy_random)].
Qed.
Lemma force_time p : dle (pm_time_limit (in_force p)) (dofZ 0) = false.
Proof. unfold in_force. cbn [set_params pm_time_limit]. destruct (dle (pm_time_limit p) (dofZ 0)) eqn:E; [reflexivity|exact E]. Qed.

(** *** What is announced *)
Lemma announced_split a b v w : ~ In ":"%char (str a) -> ~ In ":"%char (str b) -> announced a v = line_of b w -> str a = str b /\ v = w.
Proof.
  intros Ha Hb H. unfold announced, line_of in H.
  assert (S : forall x y : string, str (x ++ y)%string = str x ++ str y).
  { intros x y. unfold str. induction x as [|c x IH]; [reflexivity|]. cbn. f_equal. exact IH. }
  rewrite !S, <- !app_assoc in H. apply app_inv_head in H.
  change (str ": ") with [":"%char; " "%char] in H. cbn [app] in H.
  revert Ha Hb H. generalize (str a) (str b). intros x. induction x as [|c x IH]; intros [|d y] Ha Hb H; cbn in H.
  - injection H as H. auto.
  - injection H as H0 H. subst d. destruct Hb. left. reflexivity.
  - injection H as H0 H. subst c. destruct Ha. left. reflexivity.
  - injection H as H0 H. subst d. destruct (IH y) as [E E2]; [intros K; apply Ha; right; exact K|intros K; apply Hb; right; exact K|exact H|]. subst. auto.
Qed.
Lemma option_name_colon n : ~ In ":"%char (str (option_name n)).
Proof. destruct n; cbn; intuition discriminate. Qed.
Section Announced.
Variables (sd : text -> scan dbl) (si sl : text -> scan Z).
Variables (show_g show_d : dbl -> text).
(** The words announced. *)
Definition word_announced (p : params) (n : pname) (v : text) : Prop :=
  match n with
  | N_float_type => v = str (float_type_name (pm_float_type p))
  | N_pre_order => v = str (pre_order_name (pm_pre_order p))
  | N_order => v = str (order_name (pm_order p))
  | N_cost_norm => v = str (cost_norm_name (pm_cost_norm p))
  | N_init_policy => v = str (init_policy_name (pm_init_policy p))
  | N_observer | N_storage => False
  | _ => True
  end.
Lemma announced_word p n v : In (line_of (option_name n) v) (started show_g show_d p) -> word_announced p n v.
Proof.
  intros Hin.
  assert (D : forall a x, announced a x = line_of (option_name n) v -> ~ In ":"%char (str a) -> str a = str (option_name n) /\ v = x).
  { intros a x E Ha. apply announced_split in E; [|exact Ha|apply option_name_colon]. destruct E; auto. }
  assert (Col : forall a, existsb (Ascii.eqb ":") (str a) = false -> ~ In ":"%char (str a)).
  { intros a E K. assert (C : existsb (Ascii.eqb ":") (str a) = true) by (apply existsb_exists; exists ":"%char; split; [exact K|reflexivity]). congruence. }
  unfold started in Hin. apply in_app_or in Hin.
  assert (Case : forall a x, announced a x = line_of (option_name n) v -> existsb (Ascii.eqb ":") (str a) = false ->
    (str a = str (option_name n) -> v = x -> word_announced p n v) -> word_announced p n v).
  { intros a x E C K. apply D in E; [|apply Col; exact C]. destruct E. auto. }
  assert (Skip : forall t, t = line_of (option_name n) v -> (match t with c :: d :: e :: _ => negb (Ascii.eqb c " ") || negb (Ascii.eqb d " ") | _ => false end) = true -> word_announced p n v).
  { intros t -> E. exfalso. unfold line_of in E. cbn in E. discriminate. }
  assert (All : Forall (fun l => l = line_of (option_name n) v -> word_announced p n v) (started show_g show_d p)).
  { unfold started. destruct (pm_solver p); cbn [app]; repeat apply Forall_cons; try apply Forall_nil; intros E;
      try (apply (Skip _ E); reflexivity);
      (apply (Case _ _ E); [reflexivity|]; clear; intros E V; destruct n; try exact I; try exact V; exfalso; discriminate E). }
  rewrite Forall_forall in All. apply (All (line_of (option_name n) v)); [|reflexivity]. unfold started. apply in_or_app. exact Hin.
Qed.
(** A value announced is accepted for the parameter and stands for the value in force. *)
Lemma announced_accepted p n v : good p -> dle (pm_time_limit p) (dofZ 0) = false -> In (line_of (option_name n) v) (started show_g show_d p) ->
  reads_back sd si sl v (field n p) -> (n = N_delta -> pm_delta p <> dofZ (-1)) -> accepts sd si sl n v (field n p).
Proof.
  intros Hg Ht Hin Hr Hd. pose proof (Hg n) as Hn. apply announced_word in Hin.
  assert (Num : forall d (P : dbl -> Prop), field n p = V_d d -> P d -> exists d', V_d d = V_d d' /\ real_text sd v d' /\ P d').
  { intros d P E HP. rewrite E in Hr. destruct Hr as [R1 R2]. exists d. split; [reflexivity|]. split; [|exact HP]. split; [exact R1|left; exact R2]. }
  assert (Int : forall z a b, field n p = V_z z -> a <= z <= b -> b <= int_max -> exists z', V_z z = V_z z' /\ int_text si v z' /\ a <= z' <= b).
  { intros z a b E HP Hb. rewrite E in Hr. destruct Hr as (R1 & R2 & R3). exists z. split; [reflexivity|]. split; [|exact HP]. split; [exact R1|apply R3; lia]. }
  destruct n; cbn [accepts field word_announced] in *.
  all: try (eapply Num; [reflexivity|exact Hn]).
  all: try (eapply Int; [reflexivity|exact Hn|vm_compute; discriminate]).
  all: try contradiction.
  - exists (pm_limit p). split; [reflexivity|]. split; [split; apply Hr|exact Hn].
  - exists (pm_time_limit p). split; [|rewrite Ht; reflexivity]. destruct Hr as [R1 R2]. split; [exact R1|left; exact R2].
  - unfold word. rewrite Hin. destruct (pm_float_type p); cbn [float_type_name]; tauto.
  - unfold word. rewrite Hin. destruct (pm_pre_order p); cbn [pre_order_name]; tauto.
  - unfold word. rewrite Hin. destruct (pm_order p); cbn [order_name]; tauto.
  - eapply Num; [reflexivity|]. destruct Hn as [Hn|Hn]; [destruct (Hd eq_refl Hn)|exact Hn].
  - unfold word. rewrite Hin. destruct (pm_cost_norm p); cbn [cost_norm_name]; tauto.
  - unfold word. rewrite Hin. destruct (pm_init_policy p); cbn [init_policy_name]; tauto.
Qed.
(** A parameter has a line. *)
Lemma line_announced a v : announced a v = line_of a v.
Proof.
  assert (S : forall x y : string, str (x ++ y)%string = str x ++ str y).
  { intros x y. unfold str. induction x as [|c x IH]; [reflexivity|]. cbn. f_equal. exact IH. }
  unfold announced, line_of. rewrite !S, <- !app_assoc. reflexivity.
Qed.
Lemma announced_line p n : pm_solver p = so_bastert -> ~ not_announced n ->
  exists v, In (line_of (option_name n) v) (started show_g show_d p) /\ printed_as show_int show_g show_d n (field n p) v.
Proof.
  intros H Hn. unfold started. rewrite H.
  destruct n; try (exfalso; apply Hn; unfold not_announced; tauto); cbn [field printed_as option_name];
    (eexists; split; [rewrite <- line_announced; cbn [app In]; repeat (first [left; reflexivity|right])|]);
    first [exact I|reflexivity|left; reflexivity|left; symmetry; apply app_nil_r|right; reflexivity].
Qed.
End Announced.
