(** Property theorems C110-C112: what the tool prints about its parameters, and the values that a command line can give. *)
From Coq Require Import Ascii String QArith.
From Verif Require Import Base Problem_model Merged_model Solver_model Params_model Params_spec Writer_model Cli_model Cli_spec Cli_proofs Cli_proofs2 Cli_props
  RInterface_model Announce_model Announce_spec Announce_proofs.
Open Scope string_scope.
Open Scope list_scope.
Open Scope Z_scope.

(** C110. What the tool prints about its parameters can be given back to it. [p] are the parameters in force after any command line
    [args]. If the line [- name: v] is printed, where name is the one of a parameter that can be set, and the text [v] is read as the number it
    was printed for, then the option name=v is accepted, it gives the parameter the value in force and changes no other parameter.
    Every parameter but the ones of [not_announced] has such a line when the solver is Bastert's, and the text in it is the one of its value.
    Missing: delta when it is -1, kappa, the observer and the tuning mode (C110_refuted). *)
Theorem C110_announced_can_be_given_partial :
  forall (sd : text -> scan dbl) (si sl : text -> scan Z) (show_g show_d : dbl -> text) args n,
  let p := in_force (mp_params (parse_args sd si sl args)) in
  (forall v p0, In (line_of (option_name n) v) (started show_g show_d p) -> reads_back sd si sl v (field n p) ->
    (n = N_delta -> pm_delta p <> dofZ (-1)) ->
    exists p1, assign_parameter sd si sl p0 (str (option_name n)) v = (success, p1) /\ changes n (field n p) p0 p1) /\
  (pm_solver p = so_bastert -> ~ not_announced n ->
    exists v, In (line_of (option_name n) v) (started show_g show_d p) /\ printed_as show_int show_g show_d n (field n p) v).
Proof.
  intros sd si sl sg sh args n p. split.
  - intros v p0 H1 H2 H3.
    assert (A : accepts sd si sl n v (field n p)).
    { eapply announced_accepted; [apply force_good; apply command_line_good|apply force_time|exact H1|exact H2|exact H3]. }
    destruct (assign_parameter sd si sl p0 (str (option_name n)) v) as [s p1] eqn:E. apply assign_parameter_named in E.
    destruct E as [(-> & x & E1 & E2)|(_ & _ & E)]; [|destruct (E _ A)].
    rewrite (accepts_unique _ _ _ _ _ _ _ A E1). eauto.
  - intros H Hn. exact (announced_line sg sh p n H Hn).
Qed.
Print Assumptions C110_announced_can_be_given_partial.
(** Kappa, of which the three parameters are on one line: the least value, the step and the greatest value, in that order. *)
Theorem C110_kappa_line :
  forall (show_g show_d : dbl -> text) p, pm_solver p = so_bastert ->
  In (str "  - kappa: " ++ show_g (pm_kappa_min p) ++ str " " ++ show_g (pm_kappa_step p) ++ str " " ++ show_g (pm_kappa_max p)) (started show_g show_d p).
Proof. intros sg sd p H. unfold started. rewrite H. apply in_or_app. right. do 5 right. left. reflexivity. Qed.
Print Assumptions C110_kappa_line.
(** With -p theta=0.5 the line of theta is printed and can be given back to other parameters. *)
Definition x_show (d : dbl) : text := match d with Fin (1 # 2) => str "0.5" | _ => str "?" end.
Example C110_example :
  let p := in_force (mp_params (x_parse [str "-p"; str "theta=0.5"; str "a.lp"])) in
  In (line_of "theta" (str "0.5")) (started x_show x_show p) /\ reads_back x_double x_int x_int (str "0.5") (field N_theta p) /\
  In (line_of "norm" (str "loo")) (started x_show x_show p) /\ pm_solver p = so_bastert /\ ~ not_announced N_theta /\
  line_of "theta" (str "0.5") = str "  - theta: 0.5".
Proof.
  split; [vm_compute; tauto|]. split; [split; [vm_compute; lia|vm_compute; reflexivity]|]. split; [vm_compute; tauto|].
  split; [vm_compute; reflexivity|]. split; [intros H; repeat (destruct H as [H|H]; [discriminate H|]); discriminate H|vm_compute; reflexivity].
Qed.
(** Some lines that the tool prints cannot be given back. With no option at all the line of delta is the one of -1, and delta=-1 is refused, for every reading
    of numbers that reads -1; observation and kappa are not names of parameters; the mode manual-and-branch, given to --auto, is no mode. *)
Theorem C110_refuted :
  (forall sd si sl show_g show_d t, show_g (dofZ (-1)) = t -> (List.length t <= 512)%nat -> sd t = Scan_value (dofZ (-1)) ->
    let p := in_force (mp_params (parse_args sd si sl [str "a.lp"])) in
    In (line_of "delta" t) (started show_g show_d p) /\ forall p0, assign_parameter sd si sl p0 (str "delta") t = (delta_error, p0)) /\
  (forall show_g show_d p, In (line_of "observation" (str (observer_name (pm_observer p)))) (started show_g show_d p)) /\
  (forall sd si sl p0 v, assign_parameter sd si sl p0 (str "observation") v = (unknown, p0) /\ assign_parameter sd si sl p0 (str "kappa") v = (unknown, p0)) /\
  (forall sd si sl show_g show_d, exists args,
    let p := in_force (mp_params (parse_args sd si sl args)) in
    pm_mode p = om_manual_branch /\ In (line_of "auto-tune" (str "manual-and-branch")) (started show_g show_d p) /\
    pm_mode (mp_params (parse_args sd si sl [str "--auto=manual-and-branch"])) = om_none).
Proof.
  split; [|split; [|split]].
  - intros sd si sl sg sh t Ht Hl Hs p. split.
    + unfold started. apply in_or_app. right. change (pm_solver p) with so_bastert. cbv iota. do 4 right. left. change (pm_delta p) with (dofZ (-1)). rewrite Ht. reflexivity.
    + intros p0. destruct (assign_parameter sd si sl p0 (str "delta") t) as [s p1] eqn:E. apply (assign_parameter_named _ _ _ _ N_delta) in E.
      destruct E as [(_ & x & (d & _ & E1 & E2) & _)|(-> & -> & _)]; [|reflexivity]. exfalso.
      destruct E1 as [_ [E1|[E1 _]]]; [|congruence]. rewrite Hs in E1. injection E1 as <-. destruct E2 as [E2|(q & E2 & E3)]; [discriminate|].
      injection E2 as <-. discriminate E3.
  - intros sg sh p. unfold started. apply in_or_app. left. do 7 right. left. reflexivity.
  - intros sd si sl p0 v. split; rewrite assign_parameter_find; reflexivity.
  - intros sd si sl sg sh. exists [str "--auto=branch-manual"; str "a.lp"]. split; [reflexivity|]. split; [|reflexivity].
    unfold started. apply in_or_app. left. do 6 right. left. reflexivity.
Qed.
Print Assumptions C110_refuted.

(** C111. No command line, however malformed, puts a parameter out of its range: the number of loops is -1 or more, theta and kappa are in
    [0, 1], alpha in [0, 2], there are 5 members of the population or more, and so on for each of the 35 parameters ([in_its_range]). This holds when the tool
    goes on after an error too, and of the parameters that the library keeps, whose time limit is not 0 or less. A time limit that is not a number is the exception (C111_refuted). *)
Theorem C111_ranges_partial :
  forall (sd : text -> scan dbl) (si sl : text -> scan Z) args n,
  let p := mp_params (parse_args sd si sl args) in
  in_its_range (fun d => seconds d \/ d = NaN) n (field n p) /\
  in_its_range (fun d => positive d \/ d = NaN) n (field n (in_force p)).
Proof.
  intros sd si sl args n p. pose proof (command_line_good sd si sl args n) as H. pose proof (force_good _ (command_line_good sd si sl args) n) as H2.
  fold p in H, H2. split.
  - destruct n; try exact H. cbn [in_its_range field] in *. unfold seconds. destruct H as [H|[H|H]]; auto.
  - destruct n; try exact H2. cbn [in_its_range field] in *. destruct H2 as [H2|[H2|H2]]; auto.
    pose proof (force_time p) as K. rewrite H2 in K. discriminate K.
Qed.
Print Assumptions C111_ranges_partial.
(** The wrong values of this command line are refused, the right ones are kept. *)
Example C111_example : let m := x_parse [str "-p"; str "theta=0.5"; str "--param=alpha=2"; str "--nonsense"; str "-p"; str "theta=2"] in
  mp_status m = theta_error /\ field N_theta (mp_params m) = V_d (Fin (1 # 2)) /\ field N_alpha (mp_params m) = V_d (dofZ 2).
Proof. split; [vm_compute; reflexivity|]. split; vm_compute; reflexivity. Qed.
(** time-limit=nan is accepted and kept by the library: no loop stops because of the time, since every comparison with it is false. *)
Theorem C111_refuted : forall (sd : text -> scan dbl) (si sl : text -> scan Z), sd (str "nan") = Scan_value NaN ->
  let m := parse_args sd si sl [str "-p"; str "time-limit=nan"; str "a.lp"] in
  mp_status m = success /\ field N_time_limit (mp_params m) = V_d NaN /\ field N_time_limit (in_force (mp_params m)) = V_d NaN /\
  ~ in_its_range seconds N_time_limit (field N_time_limit (mp_params m)).
Proof.
  intros sd si sl H.
  destruct (C70_command_line_partial sd si sl [I_param F_short_next "="%char (str "time-limit") (str "nan"); I_file (str "a.lp")]
    (mk_request (set_time_limit NaN default_params) [str "a.lp"] None None 6 false false)) as [(U & _) V].
  - constructor; [|constructor; [discriminate|constructor]]. split; [right; reflexivity|]. split; [discriminate|]. split; [discriminate|].
    split; intros K; cbn in K; repeat (destruct K as [K|K]; [discriminate K|]); exact K.
  - reflexivity.
  - apply Asks_cons with (q' := mk_request (set_time_limit NaN default_params) [] None None 6 false false); [|eapply Asks_cons; [reflexivity|apply Asks_nil]].
    exists N_time_limit, (V_d NaN), (set_time_limit NaN default_params). split; [reflexivity|]. split.
    + exists NaN. split; [|reflexivity]. split; [vm_compute; lia|left; exact H].
    + split; [|reflexivity]. split; [reflexivity|]. split; [|reflexivity]. intros n Hn. destruct n; (reflexivity || congruence).
  - change (command_line [I_param F_short_next "="%char (str "time-limit") (str "nan"); I_file (str "a.lp")])
      with [str "-p"; str "time-limit=nan"; str "a.lp"] in U, V.
    intros m. unfold m. rewrite U, V. split; [reflexivity|]. split; [reflexivity|]. split; [reflexivity|].
    intros [K|[K|(q & K & _)]]; discriminate K.
Qed.
Print Assumptions C111_refuted.

(** C112. The word printed for a value of an enumeration is the one that the command line takes for it, and no two values have the same word: preprocessing, order of the constraints,
    type of the numbers, norm, initialisation, observer, storage, and the tuning modes of a single method. Missing: the two modes with branch (C110_refuted). *)
Theorem C112_words_partial : forall (sd : text -> scan dbl) (si sl : text -> scan Z),
  (forall a, accepts sd si sl N_pre_order (str (pre_order_name a)) (V_pre a)) /\
  (forall a, accepts sd si sl N_order (str (order_name a)) (V_order a)) /\
  (forall a, accepts sd si sl N_float_type (str (float_type_name a)) (V_float a)) /\
  (forall a, accepts sd si sl N_cost_norm (str (cost_norm_name a)) (V_norm a)) /\
  (forall a, accepts sd si sl N_init_policy (str (init_policy_name a)) (V_init a)) /\
  (forall a, accepts sd si sl N_observer (str (observer_name a)) (V_obs a)) /\
  (forall a, accepts sd si sl N_storage (str (storage_name a)) (V_storage a)) /\
  (forall a, a <> om_manual_branch -> a <> om_nlopt_branch -> auto_mode (str (mode_name a)) = a) /\
  (forall a b, mode_name a = mode_name b -> a = b) /\
  (forall n t x y, accepts sd si sl n t x -> accepts sd si sl n t y -> x = y).
Proof.
  intros sd si sl. split; [|split; [|split; [|split; [|split; [|split; [|split; [|split; [|split]]]]]]]].
  1-7: intros []; cbn [accepts pre_order_name order_name float_type_name cost_norm_name init_policy_name observer_name storage_name]; unfold word; tauto.
  - intros [] H1 H2; try congruence; vm_compute; reflexivity.
  - intros [] [] H; try reflexivity; discriminate H.
  - intros n t x y. apply accepts_unique.
Qed.
Print Assumptions C112_words_partial.
Example C112_example : accepts x_double x_int x_int N_order (str "pi-sign-change") (V_order co_pi_sign_change) /\ order_name co_pi_sign_change = "pi-sign-change".
Proof. split; [apply (proj1 (proj2 (C112_words_partial x_double x_int x_int)) co_pi_sign_change)|reflexivity]. Qed.
(** The words printed for the two modes with branch are not the ones of --auto: they are read as no tuning. *)
Theorem C112_refuted : auto_mode (str (mode_name om_manual_branch)) = om_none /\ auto_mode (str (mode_name om_nlopt_branch)) = om_none.
Proof. split; vm_compute; reflexivity. Qed.
Print Assumptions C112_refuted.
