(** Lemmas on the parameters of the command line. *)
From Coq Require Import Ascii String QArith Lia.
From Verif Require Import Base Problem_model Merged_model Solver_model Params_model Params_spec Cli_model Cli_spec.
Open Scope string_scope.
Open Scope list_scope.
Open Scope Z_scope.

Definition all_names : list pname := [N_limit; N_time_limit; N_float_type; N_observer; N_print_level; N_pre_order; N_order; N_storage; N_theta; N_delta; N_kappa_min; N_kappa_step; N_kappa_max; N_alpha; N_w; N_cost_norm; N_pushes_limit; N_pushing_objective_amplifier; N_pushing_iteration_limit; N_pushing_k_factor; N_population_size; N_crossover_bastert; N_crossover_mean; N_crossover_stddev; N_mutation_variable_mean; N_mutation_variable_stddev; N_mutation_value_mean; N_mutation_value_stddev; N_improve_start; N_improve_increase; N_improve_stop; N_init_policy; N_init_policy_random; N_thread; N_seed].
Definition shortcut (n : pname) : option ascii := match n with N_limit => Some "l"%char | _ => None end.
Section Cli.
Variable scan_double : text -> scan dbl.
Variable scan_int : text -> scan Z.
Variable scan_long : text -> scan Z.
Notation to_double := (to_double scan_double).
Notation assign_01 := (assign_01 scan_double).
Notation assign_0oo := (assign_0oo scan_double).
Notation assign_d := (assign_d scan_double).
Notation assign_int := (assign_int scan_int).
Notation assign_long := (assign_long scan_long).
Notation assign_parameter := (assign_parameter scan_double scan_int scan_long).
Notation accepts := (accepts scan_double scan_int scan_long).
Definition error_of (n : pname) : status := match n with
  | N_limit => limit_error
  | N_time_limit => time_limit_error
  | N_float_type => floating_point_type_error
  | N_observer => observer_type_error
  | N_print_level => print_level_error
  | N_pre_order => preprocessing_error
  | N_order => constraint_order_error
  | N_storage => storage_type_error
  | N_theta => theta_error
  | N_delta => delta_error
  | N_kappa_min => kappa_min_error
  | N_kappa_step => kappa_step_error
  | N_kappa_max => kappa_max_error
  | N_alpha => alpha_error
  | N_w => w_error
  | N_cost_norm => norm_error
  | N_pushes_limit => pushes_limit_error
  | N_pushing_objective_amplifier => pushing_objective_amplifier_error
  | N_pushing_iteration_limit => pushing_iteration_limit_error
  | N_pushing_k_factor => pushing_k_factor_error
  | N_population_size => init_population_size_error
  | N_crossover_bastert => init_crossover_bastert_insertion_error
  | N_crossover_mean => init_crossover_solution_selection_mean_error
  | N_crossover_stddev => init_crossover_solution_selection_stddev_error
  | N_mutation_variable_mean => init_mutation_variable_mean_error
  | N_mutation_variable_stddev => init_mutation_variable_stddev_error
  | N_mutation_value_mean => init_mutation_value_mean_error
  | N_mutation_value_stddev => init_mutation_value_stddev_error
  | N_improve_start => init_kappa_improve_start_error
  | N_improve_increase => init_kappa_improve_increase_error
  | N_improve_stop => init_kappa_improve_stop_error
  | N_init_policy => init_policy_error
  | N_init_policy_random => init_policy_random_error
  | N_thread => thread_error
  | N_seed => seed_error
  end.
Definition assign_one (n : pname) (v : text) (p : params) : status * params := match n with
  | N_limit => assigned limit_error set_limit (assign_long v (-1) long_max) p
  | N_time_limit => assigned time_limit_error set_time_limit (option_map (fun d => if dle d (dofZ 0) then dofZ (-1) else d) (to_double v)) p
  | N_float_type => assigned floating_point_type_error set_float_type (value_of float_type_table v) p
  | N_observer => assigned observer_type_error set_observer (value_of observer_table v) p
  | N_print_level => assigned print_level_error set_print_level (assign_int v 0 2) p
  | N_pre_order => assigned preprocessing_error set_pre_order (value_of pre_order_table v) p
  | N_order => assigned constraint_order_error set_order (value_of order_table v) p
  | N_storage => assigned storage_type_error set_storage (value_of storage_table v) p
  | N_theta => assigned theta_error set_theta (assign_01 v) p
  | N_delta => assigned delta_error set_delta (assign_0oo v) p
  | N_kappa_min => assigned kappa_min_error set_kappa_min (assign_01 v) p
  | N_kappa_step => assigned kappa_step_error set_kappa_step (assign_01 v) p
  | N_kappa_max => assigned kappa_max_error set_kappa_max (assign_01 v) p
  | N_alpha => assigned alpha_error set_alpha (assign_d v (dofZ 0) (dofZ 2)) p
  | N_w => assigned w_error set_w (assign_d v (dofZ 0) dbl_max) p
  | N_cost_norm => assigned norm_error set_cost_norm (value_of cost_norm_table v) p
  | N_pushes_limit => assigned pushes_limit_error set_pushes_limit (assign_int v 0 int_max) p
  | N_pushing_objective_amplifier => assigned pushing_objective_amplifier_error set_pushing_objective_amplifier (assign_0oo v) p
  | N_pushing_iteration_limit => assigned pushing_iteration_limit_error set_pushing_iteration_limit (assign_int v 0 int_max) p
  | N_pushing_k_factor => assigned pushing_k_factor_error set_pushing_k_factor (assign_0oo v) p
  | N_population_size => assigned init_population_size_error set_population_size (assign_int v 5 int_max) p
  | N_crossover_bastert => assigned init_crossover_bastert_insertion_error set_crossover_bastert (assign_01 v) p
  | N_crossover_mean => assigned init_crossover_solution_selection_mean_error set_crossover_mean (assign_01 v) p
  | N_crossover_stddev => assigned init_crossover_solution_selection_stddev_error set_crossover_stddev (assign_01 v) p
  | N_mutation_variable_mean => assigned init_mutation_variable_mean_error set_mutation_variable_mean (assign_01 v) p
  | N_mutation_variable_stddev => assigned init_mutation_variable_stddev_error set_mutation_variable_stddev (assign_01 v) p
  | N_mutation_value_mean => assigned init_mutation_value_mean_error set_mutation_value_mean (assign_01 v) p
  | N_mutation_value_stddev => assigned init_mutation_value_stddev_error set_mutation_value_stddev (assign_01 v) p
  | N_improve_start => assigned init_kappa_improve_start_error set_improve_start (assign_01 v) p
  | N_improve_increase => assigned init_kappa_improve_increase_error set_improve_increase (assign_01 v) p
  | N_improve_stop => assigned init_kappa_improve_stop_error set_improve_stop (assign_01 v) p
  | N_init_policy => assigned init_policy_error set_init_policy (value_of init_policy_table v) p
  | N_init_policy_random => assigned init_policy_random_error set_init_policy_random (assign_01 v) p
  | N_thread => assigned thread_error set_thread (assign_int v 0 int_max) p
  | N_seed => assigned seed_error set_seed (assign_int v 0 int_max) p
  end.
Lemma assign_parameter_find p name v :
  assign_parameter p name v =
  match find (fun n => is_equal name (option_name n) (shortcut n)) all_names with
  | Some n => assign_one n v p | None => (unknown, p) end.
Proof.
  cbv [assign_parameter Cli_model.assign_parameter find all_names option_name shortcut].
  repeat match goal with |- (if ?c then _ else _) = _ => destruct c; [ reflexivity | ] end. reflexivity.
Qed.

Lemma text_eqb_eq a b : text_eqb a b = true <-> a = b.
Proof.
  revert b. induction a as [ |x a IH ]; intros [ |y b ]; cbn [text_eqb]; try (split; (reflexivity || discriminate)).
  rewrite andb_true_iff, Ascii.eqb_eq, IH. split; [ intros [ -> -> ]; reflexivity | intros E; injection E; auto ].
Qed.
Lemma text_eqb_refl a : text_eqb a a = true.
Proof. apply text_eqb_eq. reflexivity. Qed.
Lemma is_equal_true name s c : is_equal name s c = true <->
  name = str s \/ exists a d, c = Some d /\ name = [a; d].
Proof.
  unfold is_equal. rewrite orb_true_iff, text_eqb_eq. apply or_iff_compat_l.
  destruct c as [ c | ].
  - destruct name as [ |a [ |d [ |e r ] ] ]; try (split; [ discriminate | intros (x & y & H1 & H2); discriminate H2 ]).
    rewrite Ascii.eqb_eq. split.
    + intros ->. exists a, c. auto.
    + intros (x & y & H1 & H2). congruence.
  - split; [ discriminate | intros (x & y & H & _); discriminate H ].
Qed.
Lemma all_names_all n : In n all_names.
Proof. destruct n; cbn; tauto. Qed.
Lemma find_name n : find (fun m => is_equal (str (option_name n)) (option_name m) (shortcut m)) all_names = Some n.
Proof. destruct n; vm_compute; reflexivity. Qed.
Lemma find_other name : (forall n, name <> str (option_name n)) -> ~ (exists a, name = [a; "l"%char]) ->
  find (fun m => is_equal name (option_name m) (shortcut m)) all_names = None.
Proof.
  intros H1 H2. destruct (find _ all_names) as [ m | ] eqn:E; [ | reflexivity ].
  apply find_some in E. destruct E as [ _ E ]. apply is_equal_true in E. destruct E as [ E | (a & d & E1 & E2) ].
  - destruct (H1 _ E).
  - destruct m; try discriminate E1. injection E1 as <-. destruct H2. eauto.
Qed.

(** The readers *)
Lemma to_double_spec t d : to_double t = Some d <-> real_text scan_double t d.
Proof.
  unfold Cli_model.to_double, real_text. destruct (Nat.ltb_spec 512 (List.length t)).
  - split; [ discriminate | lia ].
  - destruct (scan_double t) as [ | | x ].
    + split.
      * intros E. injection E as <-. auto.
      * intros (_ & [ E | [ _ -> ] ]); [ discriminate E | reflexivity ].
    + split; [ discriminate | intros (_ & [ E | [ E _ ] ]); discriminate E ].
    + split.
      * intros E. injection E as ->. auto.
      * intros (_ & [ E | [ E _ ] ]); [ congruence | discriminate E ].
Qed.
Lemma to_int_spec t z : to_int scan_int t = Some z <-> int_text scan_int t z.
Proof.
  unfold to_int, int_text. destruct (Nat.ltb_spec 512 (List.length t)); [ split; [ discriminate | lia ] | ].
  destruct (scan_int t); split; try discriminate; try (intros (_ & E); congruence). intros E. split; [ assumption | congruence ].
Qed.
Lemma to_long_spec t z : to_long scan_long t = Some z <-> long_text scan_long t z.
Proof.
  unfold to_long, long_text. destruct (Nat.ltb_spec 512 (List.length t)); [ split; [ discriminate | lia ] | ].
  destruct (scan_long t); split; try discriminate; try (intros (_ & E); congruence). intros E. split; [ assumption | congruence ].
Qed.
Lemma dle_fin a b : dle (Fin a) (Fin b) = true <-> (a <= b)%Q.
Proof.
  unfold dle, dlt, deq. rewrite orb_true_iff, negb_true_iff. split.
  - intros [ H | H ].
    + destruct (Qlt_le_dec b a) as [ L | L ]; [ | exact L ].
      apply Qlt_le_weak in L. apply Qle_bool_iff in L. congruence.
    + apply Qeq_bool_eq in H. rewrite H. apply Qle_refl.
  - intros H. destruct (Qle_lt_or_eq _ _ H) as [ L | L ].
    + left. destruct (Qle_bool b a) eqn:E; [ | reflexivity ]. apply Qle_bool_iff in E. apply Qle_not_lt in E. contradiction.
    + right. apply Qeq_eq_bool. exact L.
Qed.
Lemma dle_both a b d : (dle (Fin a) d && dle d (Fin b) = true) <-> within a b d.
Proof.
  rewrite andb_true_iff. unfold within. destruct d as [ | | | q ].
  - split; [ intros [ H _ ]; discriminate H | intros (q & H & _); discriminate H ].
  - split; [ intros [ H _ ]; discriminate H | intros (q & H & _); discriminate H ].
  - split; [ intros [ _ H ]; discriminate H | intros (q & H & _); discriminate H ].
  - rewrite !dle_fin. split.
    + intros H. exists q. tauto.
    + intros (x & E & H). injection E as <-. exact H.
Qed.
Lemma dlt_pos d : dlt (dofZ 0) d = true <-> positive d.
Proof.
  unfold positive, dofZ. destruct d as [ | | | q ]; cbn [dlt].
  - split; [ discriminate | intros [ H | (q & H & _) ]; discriminate H ].
  - split; [ discriminate | intros [ H | (q & H & _) ]; discriminate H ].
  - split; auto.
  - rewrite negb_true_iff. split.
    + intros H. right. exists q. split; [ reflexivity | ].
      destruct (Qlt_le_dec 0 q) as [ L | L ]; [ exact L | ]. apply Qle_bool_iff in L. unfold inject_Z in H. congruence.
    + intros [ H | (x & E & H) ]; [ discriminate H | ]. injection E as <-.
      destruct (Qle_bool q (inject_Z 0)) eqn:E; [ | reflexivity ]. apply Qle_bool_iff in E. apply Qle_not_lt in E. contradiction.
Qed.
Lemma assign_d_spec t a b d : assign_d t (Fin a) (Fin b) = Some d <-> real_text scan_double t d /\ within a b d.
Proof.
  unfold Cli_model.assign_d. rewrite <- dle_both, <- to_double_spec.
  destruct (to_double t) as [ x | ]; cbn [bind].
  - destruct (dle (Fin a) x && dle x (Fin b)) eqn:E; split.
    + intros H. injection H as <-. split; [ reflexivity | exact E ].
    + intros [ H _ ]. exact H.
    + discriminate.
    + intros [ H1 H2 ]. congruence.
  - split; [ discriminate | intros [ H _ ]; discriminate H ].
Qed.
Lemma assign_01_spec t d : assign_01 t = Some d <-> real_text scan_double t d /\ within 0 1 d.
Proof. exact (assign_d_spec t 0 1 d). Qed.
Lemma assign_0oo_spec t d : assign_0oo t = Some d <-> real_text scan_double t d /\ positive d.
Proof.
  unfold Cli_model.assign_0oo. rewrite <- dlt_pos, <- to_double_spec.
  destruct (to_double t) as [ x | ]; cbn [bind].
  - destruct (dlt (dofZ 0) x) eqn:E; split.
    + intros H. injection H as <-. split; [ reflexivity | exact E ].
    + intros [ H _ ]. exact H.
    + discriminate.
    + intros [ H1 H2 ]. congruence.
  - split; [ discriminate | intros [ H _ ]; discriminate H ].
Qed.
Lemma range_bool a b z : ((a <=? z) && (z <=? b) = true) <-> a <= z <= b.
Proof. rewrite andb_true_iff, !Z.leb_le. reflexivity. Qed.
Lemma assign_int_spec t a b z : assign_int t a b = Some z <-> int_text scan_int t z /\ a <= z <= b.
Proof.
  unfold Cli_model.assign_int. rewrite <- range_bool, <- to_int_spec.
  destruct (to_int scan_int t) as [ x | ]; cbn [bind].
  - destruct ((a <=? x) && (x <=? b)) eqn:E; split.
    + intros H. injection H as <-. split; [ reflexivity | exact E ].
    + intros [ H _ ]. exact H.
    + discriminate.
    + intros [ H1 H2 ]. congruence.
  - split; [ discriminate | intros [ H _ ]; discriminate H ].
Qed.
Lemma assign_long_spec t a b z : assign_long t a b = Some z <-> long_text scan_long t z /\ a <= z <= b.
Proof.
  unfold Cli_model.assign_long. rewrite <- range_bool, <- to_long_spec.
  destruct (to_long scan_long t) as [ x | ]; cbn [bind].
  - destruct ((a <=? x) && (x <=? b)) eqn:E; split.
    + intros H. injection H as <-. split; [ reflexivity | exact E ].
    + intros [ H _ ]. exact H.
    + discriminate.
    + intros [ H1 H2 ]. congruence.
  - split; [ discriminate | intros [ H _ ]; discriminate H ].
Qed.
Lemma value_of_in {A} (tab : list (string * A)) t a : value_of tab t = Some a ->
  exists s, In (s, a) tab /\ t = str s.
Proof.
  induction tab as [ |[s x] tab IH ]; cbn [value_of]; [ discriminate | ].
  destruct (text_eqb t (str s)) eqn:E.
  - intros H. injection H as <-. apply text_eqb_eq in E. exists s. cbn [In]. auto.
  - intros H. destruct (IH H) as (u & H1 & H2). exists u. cbn [In]. auto.
Qed.
(** What one assignment does. *)
Lemma assign_one_accepts n t p s p' : assign_one n t p = (s, p') ->
  (s = success /\ exists v, accepts n t v /\ field n p' = v /\ (forall m, m <> n -> field m p' = field m p) /\ others p' = others p) \/
  (s = error_of n /\ p' = p /\ forall v, ~ accepts n t v).
Proof.
  intros H.
  destruct n; cbn [assign_one] in H; unfold assigned in H;
  match type of H with match ?a with Some _ => _ | None => _ end = _ => destruct a as [ x | ] eqn:E end;
  injection H as <- <-.
  all: try (left; split; [ reflexivity | ]; eexists; split; [ | split; [ reflexivity | split; [ intros m Hm; destruct m; (reflexivity || congruence) | reflexivity ] ] ]).
  all: try (right; split; [ reflexivity | ]; split; [ reflexivity | ]).
  all: first
    [ solve [ eexists; split; [ reflexivity | ]; first [ exact (proj1 (assign_01_spec _ _) E) | exact (proj1 (assign_0oo_spec _ _) E)
        | exact (proj1 (assign_int_spec _ _ _ _) E) | exact (proj1 (assign_long_spec _ _ _ _) E) | exact (proj1 (assign_d_spec _ _ _ _) E) ] ]
    | solve [ intros v (d & -> & Hv); first [ rewrite (proj2 (assign_01_spec _ _) Hv) in E | rewrite (proj2 (assign_0oo_spec _ _) Hv) in E
        | rewrite (proj2 (assign_int_spec _ _ _ _) Hv) in E | rewrite (proj2 (assign_long_spec _ _ _ _) Hv) in E | rewrite (proj2 (assign_d_spec _ _ _ _) Hv) in E ]; discriminate E ]
    | solve [ apply value_of_in in E; destruct E as (w & Hw & ->); cbn [In pre_order_table order_table float_type_table observer_table storage_table cost_norm_table init_policy_table] in Hw;
              repeat (destruct Hw as [ Hw | Hw ]; [ injection Hw as <- <-; unfold Cli_spec.accepts, word; cbn; tauto | ]); destruct Hw ]
    | solve [ intros v Hv; destruct v; try exact Hv; cbn [Cli_spec.accepts] in Hv; unfold word in Hv;
              repeat (destruct Hv as [ (-> & _) | Hv ]; [ discriminate E | ]); destruct Hv as (-> & _); discriminate E ]
    | idtac ].
  - (* time limit *) destruct (to_double t) as [ d | ] eqn:D; [ | discriminate E ]. exists d. split; [ apply to_double_spec; exact D | ].
    injection E as <-. reflexivity.
  - intros v (d & Hd & _). apply to_double_spec in Hd. rewrite Hd in E. discriminate E.
  - intros v (d & -> & Hv). pose proof (eq_trans (eq_sym E) (proj2 (assign_d_spec t 0 2 d) Hv)) as X. discriminate X.
  - intros v (d & -> & Hv). pose proof (eq_trans (eq_sym E) (proj2 (assign_d_spec t 0 (inject_Z ((2 ^ 53 - 1) * 2 ^ 971)) d) Hv)) as X. discriminate X.
Qed.
End Cli.
