(** The command lines. *)
From Coq Require Import Ascii String QArith Lia.
From Verif Require Import Base Problem_model Merged_model Solver_model Params_model Params_spec Cli_model Cli_spec Cli_proofs.
Open Scope string_scope.
Open Scope list_scope.
Open Scope Z_scope.

Lemma params_ext p p' : (forall n, field n p = field n p') -> others p = others p' -> p = p'.
Proof.
  intros H Ho.
  assert (E_time_limit : pm_time_limit p = pm_time_limit p') by (pose proof (H N_time_limit) as X; injection X; auto).
  assert (E_theta : pm_theta p = pm_theta p') by (pose proof (H N_theta) as X; injection X; auto).
  assert (E_delta : pm_delta p = pm_delta p') by (pose proof (H N_delta) as X; injection X; auto).
  assert (E_kappa_min : pm_kappa_min p = pm_kappa_min p') by (pose proof (H N_kappa_min) as X; injection X; auto).
  assert (E_kappa_step : pm_kappa_step p = pm_kappa_step p') by (pose proof (H N_kappa_step) as X; injection X; auto).
  assert (E_kappa_max : pm_kappa_max p = pm_kappa_max p') by (pose proof (H N_kappa_max) as X; injection X; auto).
  assert (E_alpha : pm_alpha p = pm_alpha p') by (pose proof (H N_alpha) as X; injection X; auto).
  assert (E_pushing_k_factor : pm_pushing_k_factor p = pm_pushing_k_factor p') by (pose proof (H N_pushing_k_factor) as X; injection X; auto).
  assert (E_pushing_objective_amplifier : pm_pushing_objective_amplifier p = pm_pushing_objective_amplifier p') by (pose proof (H N_pushing_objective_amplifier) as X; injection X; auto).
  assert (E_init_policy_random : pm_init_policy_random p = pm_init_policy_random p') by (pose proof (H N_init_policy_random) as X; injection X; auto).
  assert (E_crossover_bastert : pm_crossover_bastert p = pm_crossover_bastert p') by (pose proof (H N_crossover_bastert) as X; injection X; auto).
  assert (E_crossover_mean : pm_crossover_mean p = pm_crossover_mean p') by (pose proof (H N_crossover_mean) as X; injection X; auto).
  assert (E_crossover_stddev : pm_crossover_stddev p = pm_crossover_stddev p') by (pose proof (H N_crossover_stddev) as X; injection X; auto).
  assert (E_mutation_variable_mean : pm_mutation_variable_mean p = pm_mutation_variable_mean p') by (pose proof (H N_mutation_variable_mean) as X; injection X; auto).
  assert (E_mutation_variable_stddev : pm_mutation_variable_stddev p = pm_mutation_variable_stddev p') by (pose proof (H N_mutation_variable_stddev) as X; injection X; auto).
  assert (E_mutation_value_mean : pm_mutation_value_mean p = pm_mutation_value_mean p') by (pose proof (H N_mutation_value_mean) as X; injection X; auto).
  assert (E_mutation_value_stddev : pm_mutation_value_stddev p = pm_mutation_value_stddev p') by (pose proof (H N_mutation_value_stddev) as X; injection X; auto).
  assert (E_improve_start : pm_improve_start p = pm_improve_start p') by (pose proof (H N_improve_start) as X; injection X; auto).
  assert (E_improve_increase : pm_improve_increase p = pm_improve_increase p') by (pose proof (H N_improve_increase) as X; injection X; auto).
  assert (E_improve_stop : pm_improve_stop p = pm_improve_stop p') by (pose proof (H N_improve_stop) as X; injection X; auto).
  assert (E_w : pm_w p = pm_w p') by (pose proof (H N_w) as X; injection X; auto).
  assert (E_seed : pm_seed p = pm_seed p') by (pose proof (H N_seed) as X; injection X; auto).
  assert (E_thread : pm_thread p = pm_thread p') by (pose proof (H N_thread) as X; injection X; auto).
  assert (E_limit : pm_limit p = pm_limit p') by (pose proof (H N_limit) as X; injection X; auto).
  assert (E_print_level : pm_print_level p = pm_print_level p') by (pose proof (H N_print_level) as X; injection X; auto).
  assert (E_pushes_limit : pm_pushes_limit p = pm_pushes_limit p') by (pose proof (H N_pushes_limit) as X; injection X; auto).
  assert (E_pushing_iteration_limit : pm_pushing_iteration_limit p = pm_pushing_iteration_limit p') by (pose proof (H N_pushing_iteration_limit) as X; injection X; auto).
  assert (E_population_size : pm_population_size p = pm_population_size p') by (pose proof (H N_population_size) as X; injection X; auto).
  assert (E_pre_order : pm_pre_order p = pm_pre_order p') by (pose proof (H N_pre_order) as X; injection X; auto).
  assert (E_order : pm_order p = pm_order p') by (pose proof (H N_order) as X; injection X; auto).
  assert (E_float_type : pm_float_type p = pm_float_type p') by (pose proof (H N_float_type) as X; injection X; auto).
  assert (E_init_policy : pm_init_policy p = pm_init_policy p') by (pose proof (H N_init_policy) as X; injection X; auto).
  assert (E_cost_norm : pm_cost_norm p = pm_cost_norm p') by (pose proof (H N_cost_norm) as X; injection X; auto).
  assert (E_observer : pm_observer p = pm_observer p') by (pose proof (H N_observer) as X; injection X; auto).
  assert (E_storage : pm_storage p = pm_storage p') by (pose proof (H N_storage) as X; injection X; auto).
  destruct p, p'. cbn in *. unfold others in Ho. cbn in Ho. injection Ho as -> -> -> ->. subst. reflexivity.
Qed.

Section Cli.
Variable scan_double : text -> scan dbl.
Variable scan_int : text -> scan Z.
Variable scan_long : text -> scan Z.
Notation assign_parameter := (assign_parameter scan_double scan_int scan_long).
Notation accepts := (accepts scan_double scan_int scan_long).
Notation asks := (asks scan_double scan_int scan_long).
Notation parse_from := (parse_from scan_double scan_int scan_long).
Notation parse_turn := (parse_turn scan_double scan_int scan_long).
Notation asks_all := (asks_all scan_double scan_int scan_long).

(** *** One parameter *)
Lemma option_name_inj n m : str (option_name n) = str (option_name m) -> n = m.
Proof.
  intros E. pose proof (find_name n) as H1. pose proof (find_name m) as H2.
  assert (E2 : find (fun k => is_equal (str (option_name n)) (option_name k) (shortcut k)) all_names =
               find (fun k => is_equal (str (option_name m)) (option_name k) (shortcut k)) all_names) by (rewrite E; reflexivity).
  congruence.
Qed.
Lemma error_of_not n : error_of n <> success.
Proof. destruct n; discriminate. Qed.
Lemma assign_parameter_named p n v s p' : assign_parameter p (str (option_name n)) v = (s, p') ->
  (s = success /\ exists x, accepts n v x /\ changes n x p p') \/
  (s = error_of n /\ p' = p /\ forall x, ~ accepts n v x).
Proof.
  rewrite assign_parameter_find, find_name. intros H. apply assign_one_accepts in H.
  destruct H as [ (-> & x & H1 & H2 & H3 & H4) | H ]; [ left | right; exact H ].
  split; [ reflexivity | ]. exists x. split; [ exact H1 | ]. split; [ exact H2 | ]. split; [ exact H3 | exact H4 ].
Qed.
Lemma name_dec name : (exists n, name = str (option_name n)) \/ forall n, name <> str (option_name n).
Proof.
  destruct (Exists_dec (fun n => name = str (option_name n)) all_names (fun n => list_eq_dec ascii_dec _ _)) as [ H | H ].
  - left. apply Exists_exists in H. destruct H as (n & _ & H). eauto.
  - right. intros n Hn. apply H. apply Exists_exists. exists n. split; [ apply all_names_all | exact Hn ].
Qed.
Lemma assign_parameter_unknown p name v : (forall n, name <> str (option_name n)) -> ~ (exists a, name = [a; "l"%char]) ->
  assign_parameter p name v = (unknown, p).
Proof. intros H1 H2. rewrite assign_parameter_find, find_other by assumption. reflexivity. Qed.
Lemma assign_parameter_cases p name v s p' : ~ (exists a, name = [a; "l"%char]) -> assign_parameter p name v = (s, p') ->
  (s = success /\ exists n x, name = str (option_name n) /\ accepts n v x /\ changes n x p p') \/
  (s <> success /\ p' = p /\ forall n x, name = str (option_name n) -> ~ accepts n v x).
Proof.
  intros Hs H. destruct (name_dec name) as [ (n & ->) | Hn ].
  - apply assign_parameter_named in H. destruct H as [ (-> & x & H1 & H2) | (-> & H1 & H2) ].
    + left. split; [ reflexivity | ]. exists n, x. auto.
    + right. split; [ apply error_of_not | ]. split; [ exact H1 | ].
      intros m x E. apply option_name_inj in E. subst m. apply H2.
  - rewrite assign_parameter_unknown in H by assumption. injection H as <- <-. right.
    split; [ discriminate | ]. split; [ reflexivity | ]. intros n x E. destruct (Hn _ E).
Qed.
Lemma changes_unique n x p p1 p2 : changes n x p p1 -> changes n x p p2 -> p1 = p2.
Proof.
  intros (A1 & A2 & A3) (B1 & B2 & B3). apply params_ext; [ | congruence ].
  intros m. destruct (list_eq_dec ascii_dec (str (option_name m)) (str (option_name n))) as [ E | E ].
  - apply option_name_inj in E. subst m. congruence.
  - assert (m <> n) by congruence. rewrite A2, B2 by assumption. reflexivity.
Qed.
(** A text stands for at most one value. *)
Lemma accepts_unique n v x y : accepts n v x -> accepts n v y -> x = y.
Proof.
  intros H1 H2. destruct n; cbn [Cli_spec.accepts] in H1, H2.
  all: unfold real_text, int_text, long_text, word in H1, H2.
  all: try solve [ destruct H1 as (a & -> & (_ & H1) & _), H2 as (b & -> & (_ & H2) & _); first [ congruence | destruct H1 as [ H1 | (H1 & ->) ], H2 as [ H2 | (H2 & ->) ]; congruence ] ].
  all: try solve [ destruct H1 as (a & (_ & H1) & ->), H2 as (b & (_ & H2) & ->); assert (a = b) as -> by (destruct H1 as [ H1 | (H1 & A) ], H2 as [ H2 | (H2 & B) ]; congruence); reflexivity ].
  all: destruct x; try (destruct H1; fail); destruct y; try (destruct H2; fail); f_equal.
  all: repeat match type of H1 with _ \/ _ => destruct H1 as [ H1 | H1 ] end; destruct H1 as (-> & ->).
  all: repeat match type of H2 with _ \/ _ => destruct H2 as [ H2 | H2 ] end; destruct H2 as (H2 & ->); first [ reflexivity | discriminate H2 ].
Qed.
Lemma assign_parameter_done p n v x p' : accepts n v x -> changes n x p p' -> assign_parameter p (str (option_name n)) v = (success, p').
Proof.
  intros H1 H2. destruct (assign_parameter p (str (option_name n)) v) as [s q] eqn:E.
  apply assign_parameter_named in E. destruct E as [ (-> & y & H3 & H4) | (_ & _ & H3) ].
  - f_equal. rewrite (accepts_unique _ _ _ _ H1 H3) in H2. apply (changes_unique _ _ _ _ _ H4 H2).
  - destruct (H3 _ H1).
Qed.

(** *** The separator *)
Lemma split_argument_ok name sep v : (sep = ":"%char \/ sep = "="%char) -> v <> [] -> ~ In ":"%char name -> ~ In "="%char name ->
  split_argument (name ++ sep :: v) = (name, v).
Proof.
  intros Hs Hv H1 H2. unfold split_argument.
  assert (E : find_sep (name ++ sep :: v) = Some (List.length name)).
  { induction name as [ |c name IH ]; cbn [app find_sep].
    - unfold is_sep. destruct Hs as [ -> | -> ]; reflexivity.
    - unfold is_sep. destruct (Ascii.eqb_spec c ":") as [ -> | ]; [ destruct H1; cbn [In]; auto | ].
      destruct (Ascii.eqb_spec c "=") as [ -> | ]; [ destruct H2; cbn [In]; auto | ]. cbn [orb].
      rewrite IH; [ reflexivity | | ]; intros H; [ apply H1 | apply H2 ]; cbn [In]; auto. }
  rewrite E, app_length. cbn [List.length]. destruct v as [ |c v ]; [ congruence | ]. cbn [List.length].
  destruct (Nat.leb_spec (List.length name + S (S (List.length v))) (List.length name + 1)); [ lia | ].
  f_equal.
  - rewrite firstn_app, firstn_all, Nat.sub_diag. cbn [firstn]. apply app_nil_r.
  - rewrite skipn_app, skipn_all2 by lia. replace (List.length name + 1 - List.length name)%nat with 1%nat by lia. reflexivity.
Qed.

(** *** One option *)

Notation param_step := (param_step scan_double scan_int scan_long).
Ltac adv := intros; cbn; rewrite ?(Nat.add_comm _ 1), ?(Nat.add_comm _ 2); try reflexivity.
Lemma turn_bench f v rest i m : (f = F_glued -> v <> []) ->
  parse_from i false (option_args "--bench" "-b" f v ++ rest) m =
  parse_from (i + List.length (option_args "--bench" "-b" f v)) false rest (set_bench v (set_arg i m)).
Proof. intros Hv. destruct f; try (adv; fail). destruct v as [ |c v ]; [ destruct Hv; reflexivity | adv ]. Qed.
Lemma turn_check f v rest i m : (f = F_glued -> v <> []) ->
  parse_from i false (option_args "--check" "-C" f v ++ rest) m =
  parse_from (i + List.length (option_args "--check" "-C" f v)) false rest (set_check_filename v (set_arg i m)).
Proof. intros Hv. destruct f; try (destruct rest; adv; fail). destruct v as [ |c v ]; [ destruct Hv; reflexivity | destruct rest; adv ]. Qed.
Lemma auto_mode_word mo : auto_mode (str (mode_word mo)) = mo.
Proof. destruct mo; vm_compute; reflexivity. Qed.
Lemma turn_auto f v rest i m : (f = F_glued -> v <> []) ->
  parse_from i false (option_args "--auto" "-a" f v ++ rest) m =
  parse_from (i + List.length (option_args "--auto" "-a" f v)) false rest (set_main_params (set_mode (auto_mode v)) (set_arg i m)).
Proof. intros Hv. destruct f; try (destruct rest; adv; fail). destruct v as [ |c v ]; [ destruct Hv; reflexivity | destruct rest; adv ]. Qed.
Lemma turn_param f v rest i m : (f = F_glued -> v <> []) -> mp_status (param_step v (set_arg i m)) = success ->
  parse_from i false (option_args "--param" "-p" f v ++ rest) m =
  parse_from (i + List.length (option_args "--param" "-p" f v)) false rest (param_step v (set_arg i m)).
Proof.
  intros Hv Hs. destruct f; try (destruct rest; cbn; rewrite Hs; adv; fail).
  destruct v as [ |c v ]; [ destruct Hv; reflexivity | destruct rest; cbn; rewrite Hs; adv ].
Qed.
Lemma turn_param_rejected f v rest i m : (f = F_glued -> v <> []) -> mp_status (param_step v (set_arg i m)) <> success ->
  parse_from i false (option_args "--param" "-p" f v ++ rest) m = param_step v (set_arg i m).
Proof.
  intros Hv Hs. destruct f; try (destruct rest; cbn; destruct (mp_status _); congruence; fail).
  destruct v as [ |c v ]; [ destruct Hv; reflexivity | destruct rest; cbn; destruct (mp_status _); congruence ].
Qed.
Lemma turn_flag i it rest m : match it with I_bench _ _ | I_auto _ _ | I_check _ _ | I_verbose _ _ | I_param _ _ _ _ | I_file _ => False | _ => True end ->
  parse_from i false (item_args it ++ rest) m = parse_from (i + 1) false rest
    (match it with
     | I_quiet | I_quiet_short => set_quiet (set_arg i m)
     | I_optimize | I_optimize_short => set_optimize (set_arg i m)
     | I_disable | I_disable_short => set_main_params (set_preprocessor pp_none) (set_arg i m)
     | I_random => set_main_params (set_solver so_random) (set_arg i m)
     | I_debug => set_main_params (set_debug true) (set_arg i m)
     | _ => set_arg i m end).
Proof. intros H. destruct it; try (destruct H; fail); destruct rest; adv. Qed.
Lemma turn_file v rest i m : hd_error v <> Some "-"%char ->
  parse_from i false (v :: rest) m = parse_from (i + 1) false rest (add_file v (set_arg i m)).
Proof.
  intros H. destruct v as [ |c v ]; [ destruct rest; adv | ].
  assert (E : Ascii.eqb c "-" = false). { destruct (Ascii.eqb_spec c "-") as [ -> | ]; [ destruct H; reflexivity | reflexivity ]. }
  assert (K : parse_turn (c :: v) rest (set_arg i m) = Next 1 (add_file (c :: v) (set_arg i m))).
  { unfold Cli_model.parse_turn, verbose_step, get_param. cbn [str list_ascii_of_string text_eqb starts_with].
    rewrite !E. destruct rest; reflexivity. }
  cbn [Cli_model.parse_from]. rewrite K. rewrite (Nat.add_comm _ 1). reflexivity.
Qed.

(** *** Whole command lines *)
Lemma understood_arg m q i : understood m q -> understood (set_arg i m) q.
Proof. exact (fun H => H). Qed.
Lemma set_same p p' x : same_fields p p' -> others p' = others x -> (forall n, field n x = field n p) -> p' = x.
Proof. intros H1 H2 H3. apply params_ext; [ | exact H2 ]. intros n. rewrite H1, H3. reflexivity. Qed.
Lemma item_step it q q' rest i m : item_ok it -> is_verbose it = false -> asks it q q' -> understood m q -> mp_status m = success ->
  exists m', parse_from i false (item_args it ++ rest) m = parse_from (i + List.length (item_args it)) false rest m' /\
    understood m' q' /\ mp_status m' = success.
Proof.
  intros Hok Hv Ha Hu Hs.
  destruct it; cbn [Cli_spec.asks item_ok] in *; try discriminate Hv.
  1-10: rewrite turn_flag by exact I; eexists; split; [ reflexivity | ]; split; [ | exact Hs ].
  all: unfold understood in *; destruct Hu as (U1 & U2 & U3 & U4 & U5 & U6 & U7).
  1-2: subst q'; tauto.
  1-2: subst q'; cbn; tauto.
  1-2: subst q'; cbn; tauto.
  1-4: destruct Ha as (p & Hp & Ho & ->); cbn; rewrite U1; split; [ symmetry; apply (set_same _ _ _ Hp); [ exact Ho | intros n; destruct n; reflexivity ] | tauto ].
  - subst q'. cbn [item_args]. rewrite (turn_bench f name rest i m Hok). eexists. split; [ reflexivity | ]. split; [ cbn; tauto | exact Hs ].
  - destruct Ha as (p & Hp & Ho & ->). cbn [item_args]. rewrite turn_auto by (destruct m0; discriminate).
    rewrite auto_mode_word. eexists. split; [ reflexivity | ]. split; [ | exact Hs ].
    cbn; rewrite U1; split; [ symmetry; apply (set_same _ _ _ Hp); [ exact Ho | intros n; destruct n; reflexivity ] | tauto ].
  - subst q'. cbn [item_args]. rewrite (turn_check f name rest i m Hok). eexists. split; [ reflexivity | ]. split; [ cbn; tauto | exact Hs ].
  - destruct Ha as (n & x & p & -> & Hx & Hc & ->). destruct Hok as (K1 & K2 & K3 & K4 & K5).
    assert (E : param_step (str (option_name n) ++ sep :: v) (set_arg i m) = set_main_params (fun _ => p) (set_arg i m)).
    { unfold Cli_model.param_step. rewrite split_argument_ok by assumption.
      destruct (str (option_name n)) as [ |c r ] eqn:En; [ congruence | ]. destruct v as [ |d v ]; [ congruence | ].
      rewrite <- En. rewrite (assign_parameter_done _ n _ x p Hx); [ reflexivity | ]. cbn [mp_params set_arg]. rewrite U1. exact Hc. }
    cbn [item_args]. rewrite turn_param.
    + rewrite E. eexists. split; [ reflexivity | ]. split; [ cbn; tauto | exact Hs ].
    + intros _. destruct (str (option_name n)); discriminate.
    + rewrite E. exact Hs.
  - subst q'. cbn [item_args app List.length]. rewrite turn_file by exact Hok. eexists. split; [ reflexivity | ]. split; [ | exact Hs ].
    cbn. rewrite U2. tauto.
Qed.
Lemma items_run l : forall q q' rest i m, Forall item_ok l -> forallb (fun it => negb (is_verbose it)) l = true -> asks_all l q q' ->
  understood m q -> mp_status m = success ->
  exists m', parse_from i false (command_line l ++ rest) m = parse_from (i + List.length (command_line l)) false rest m' /\
    understood m' q' /\ mp_status m' = success.
Proof.
  induction l as [ |it l IH ]; intros q q' rest i m Hok Hv Ha Hu Hs; inversion Ha; subst.
  - exists m. cbn. rewrite Nat.add_0_r. auto.
  - inversion Hok; subst. cbn [forallb] in Hv. apply andb_true_iff in Hv. destruct Hv as [V1 V2]. apply negb_true_iff in V1.
    change (command_line (it :: l)) with (item_args it ++ command_line l). rewrite <- app_assoc.
    destruct (item_step it q q'0 (command_line l ++ rest) i m) as (m1 & E1 & U1 & S1); try assumption.
    rewrite E1. destruct (IH q'0 q' rest (i + List.length (item_args it))%nat m1) as (m2 & E2 & U2 & S2); try assumption.
    exists m2. rewrite E2, app_length, Nat.add_assoc. auto.
Qed.
Lemma start_understood : understood main0 request0.
Proof. repeat split. Qed.
Lemma parse_understood l q : Forall item_ok l -> forallb (fun it => negb (is_verbose it)) l = true -> asks_all l request0 q ->
  let m := parse_args scan_double scan_int scan_long (command_line l) in understood m q /\ mp_status m = success.
Proof.
  intros H1 H2 H3 m. destruct (items_run l request0 q [] 1 main0 H1 H2 H3 start_understood eq_refl) as (m' & E & U & S).
  rewrite app_nil_r in E. unfold m, parse_args. rewrite E. cbn [Cli_model.parse_from]. auto.
Qed.
(** The first rejected parameter ends the reading. *)
Lemma parse_rejected l q f sep name v rest : Forall item_ok l -> forallb (fun it => negb (is_verbose it)) l = true -> asks_all l request0 q ->
  item_ok (I_param f sep name v) -> ~ (exists a, name = [a; "l"%char]) ->
  (forall n x, name = str (option_name n) -> ~ accepts n v x) ->
  let m := parse_args scan_double scan_int scan_long (command_line l ++ item_args (I_param f sep name v) ++ rest) in
  mp_status m = fst (assign_parameter (q_params q) name v) /\ mp_status m <> success /\ mp_params m = q_params q /\ mp_arg m = (1 + List.length (command_line l))%nat.
Proof.
  intros H1 H2 H3 (K1 & K2 & K3 & K4 & K5) Hl Hn m.
  destruct (items_run l request0 q (item_args (I_param f sep name v) ++ rest) 1 main0 H1 H2 H3 start_understood eq_refl) as (m' & E & U & S).
  unfold m, parse_args. rewrite E. set (i := (1 + List.length (command_line l))%nat).
  destruct U as (U1 & _).
  destruct (assign_parameter (q_params q) name v) as [s p'] eqn:Ea. cbn [fst].
  assert (Ep : param_step (name ++ sep :: v) (set_arg i m') = match s with success => set_main_params (fun _ => p') (set_arg i m') | _ => set_status s (set_arg i m') end).
  { unfold Cli_model.param_step. rewrite split_argument_ok by assumption.
    destruct name as [ |c r ] eqn:En; [ congruence | ]. destruct v as [ |d v' ]; [ congruence | ].
    cbn [mp_params set_arg]. rewrite U1, Ea. reflexivity. }
  apply (assign_parameter_cases _ _ _ _ _ Hl) in Ea. destruct Ea as [ (_ & n & x & -> & B & _) | (B & -> & _) ]; [ destruct (Hn n x eq_refl B) | ].
  assert (Ep' : param_step (name ++ sep :: v) (set_arg i m') = set_status s (set_arg i m')) by (rewrite Ep; destruct s; congruence).
  cbn [item_args]. rewrite turn_param_rejected.
  - rewrite Ep'. cbn. auto.
  - intros _. destruct name; discriminate.
  - rewrite Ep'. exact B.
Qed.
(** --check *)
Lemma check_never args : forall i sk m, mp_check m = false -> mp_check (parse_from i sk args m) = false.
Proof.
  induction args as [ |a rest IH ]; intros i sk m H; cbn [Cli_model.parse_from]; [ exact H | ].
  destruct sk; [ apply IH; exact H | ].
  assert (K : match parse_turn a rest (set_arg i m) with Next _ m' | Return_ m' => mp_check m' = false end).
  { unfold Cli_model.parse_turn, verbose_step, Cli_model.param_step.
    repeat (match goal with
     | |- context [ if ?c then _ else _ ] => destruct c
     | |- context [ match get_param ?a ?b ?c ?d with _ => _ end ] => destruct (get_param a b c d) as [ [? ?] | ]
     | |- context [ assign_int ?s ?a ?b ?c ] => destruct (assign_int s a b c)
     | |- context [ split_argument ?v ] => destruct (split_argument v) as [ [ |? ? ] [ |? ? ] ]
     | |- context [ Cli_model.assign_parameter ?a ?b ?c ?p ?n ?v ] => destruct (Cli_model.assign_parameter a b c p n v) as [ [] ? ]
     | |- context [ match mp_status ?m with _ => _ end ] => destruct (mp_status m)
     end; cbn); try exact H. }
  destruct (parse_turn a rest (set_arg i m)); [ apply IH; exact K | exact K ].
Qed.
End Cli.
