(** Properties of the command line: C45, C70-C73. *)
From Coq Require Import Ascii String QArith Lia.
From Verif Require Import Base Problem_model Merged_model Solver_model Params_model Params_spec Cli_model Cli_spec Cli_proofs Cli_proofs2.
Open Scope string_scope.
Open Scope list_scope.
Open Scope Z_scope.

(** Scanners for the examples: they know a few numbers. *)
Definition x_double (t : text) : scan dbl :=
  if text_eqb t (str "0.5") then Scan_value (Fin (1 # 2)) else if text_eqb t (str "2") then Scan_value (dofZ 2)
  else if text_eqb t (str "0") then Scan_value (dofZ 0) else Scan_none.
Definition x_int (t : text) : scan Z :=
  if text_eqb t (str "5") then Scan_value 5 else if text_eqb t (str "-7") then Scan_value (-7) else Scan_none.
Notation x_parse := (parse_args x_double x_int x_int).
Notation x_assign := (assign_parameter x_double x_int x_int).

(** C45. For every name but the ones of two characters that end with "l": the option sets the
    parameter of that name to the value, which is in the range of the parameter, and no other
    parameter; or it is rejected and changes nothing, and then the name is unknown or the value is
    not one of the parameter. *)
Theorem C45_one_parameter_partial :
  forall (sd : text -> scan dbl) (si sl : text -> scan Z) p name v s p',
  ~ (exists a, name = [a; "l"%char]) ->
  assign_parameter sd si sl p name v = (s, p') ->
  (s = success /\ exists n x, name = str (option_name n) /\ accepts sd si sl n v x /\ changes n x p p') \/
  (s <> success /\ p' = p /\ forall n x, name = str (option_name n) -> ~ accepts sd si sl n v x).
Proof. intros sd si sl p name v s p'. apply assign_parameter_cases. Qed.
Print Assumptions C45_one_parameter_partial.
Example C45_example : assign_parameter x_double x_int x_int default_params (str "theta") (str "2") = (theta_error, default_params) /\
  fst (x_assign default_params (str "theta") (str "0.5")) = success /\
  ~ (exists a, str "theta" = [a; "l"%char]).
Proof. split; [ vm_compute; reflexivity | ]. split; [ vm_compute; reflexivity | ]. intros (a & H). discriminate H. Qed.
(** The parameters are 35, and each of them can be set. *)
Theorem C45_names_are_distinct : forall n m, str (option_name n) = str (option_name m) -> n = m.
Proof. exact option_name_inj. Qed.
Print Assumptions C45_names_are_distinct.
(** The name "xl" is not the name of a parameter; it sets the loop limit. *)
Theorem C45_unknown_names_are_rejected_refuted :
  exists sd si sl p name v p', (forall n, name <> str (option_name n)) /\
    assign_parameter sd si sl p name v = (success, p') /\ field N_limit p' <> field N_limit p.
Proof.
  exists x_double, x_int, x_int, default_params, (str "xl"), (str "5"), (set_limit 5 default_params).
  split; [ intros n; destruct n; discriminate | ]. split; [ vm_compute; reflexivity | ]. discriminate.
Qed.
Print Assumptions C45_unknown_names_are_rejected_refuted.

(** C70. A command line made of options of the help message other than --verbose, whose parameters
    are accepted, and of names of files is read as what it asks for. *)
Theorem C70_command_line_partial :
  forall (sd : text -> scan dbl) (si sl : text -> scan Z) l q,
  Forall item_ok l -> forallb (fun i => negb (is_verbose i)) l = true ->
  asks_all sd si sl l request0 q ->
  let m := parse_args sd si sl (command_line l) in understood m q /\ mp_status m = success.
Proof. intros sd si sl l q. apply parse_understood. Qed.
Print Assumptions C70_command_line_partial.
(** A rejected parameter stops the reading: nothing after it has an effect, and the parameters are
    the ones of the options before it. *)
Theorem C70_rejected_parameter_partial :
  forall (sd : text -> scan dbl) (si sl : text -> scan Z) l q f sep name v rest,
  Forall item_ok l -> forallb (fun i => negb (is_verbose i)) l = true -> asks_all sd si sl l request0 q ->
  item_ok (I_param f sep name v) -> ~ (exists a, name = [a; "l"%char]) ->
  (forall n x, name = str (option_name n) -> ~ accepts sd si sl n v x) ->
  let m := parse_args sd si sl (command_line l ++ item_args (I_param f sep name v) ++ rest) in
  mp_status m <> success /\ mp_params m = q_params q.
Proof.
  intros sd si sl l q f sep name v rest H1 H2 H3 H4 H5 H6 m.
  pose proof (parse_rejected sd si sl l q f sep name v rest H1 H2 H3 H4 H5 H6) as (_ & K2 & K3 & _). exact (conj K2 K3).
Qed.
Print Assumptions C70_rejected_parameter_partial.
Definition x_line : list item :=
  [I_param F_next "="%char (str "theta") (str "0.5"); I_optimize_short; I_auto F_equal om_manual; I_check F_glued (str "a.sol"); I_file (str "a.lp")].
Example C70_example : exists q, asks_all x_double x_int x_int x_line request0 q /\ Forall item_ok x_line /\
  forallb (fun i => negb (is_verbose i)) x_line = true /\
  command_line x_line = [str "--param"; str "theta=0.5"; str "-O"; str "--auto=manual"; str "-Ca.sol"; str "a.lp"] /\
  q_files q = [str "a.lp"] /\ q_optimize q = true /\ field N_theta (q_params q) = V_d (Fin (1 # 2)).
Proof.
  eexists. split.
  { unfold x_line.
    eapply Asks_cons.
    { exists N_theta, (V_d (Fin (1 # 2))), (set_theta (Fin (1 # 2)) default_params).
      split; [ reflexivity | ]. split.
      - exists (Fin (1 # 2)). split; [ reflexivity | ]. split; [ split; [ vm_compute; lia | left; vm_compute; reflexivity ] | ].
        exists (1 # 2)%Q. split; [ reflexivity | ]. split; discriminate.
      - split; [ | reflexivity ]. split; [ reflexivity | ]. split; [ | reflexivity ]. intros m Hm. destruct m; (reflexivity || congruence). }
    eapply Asks_cons; [ reflexivity | ].
    eapply Asks_cons.
    { exists (set_mode om_manual (set_theta (Fin (1 # 2)) default_params)).
      split; [ intros m; destruct m; reflexivity | ]. split; reflexivity. }
    eapply Asks_cons; [ reflexivity | ].
    eapply Asks_cons; [ reflexivity | ].
    apply Asks_nil. }
  split.
  { constructor; [ | repeat (constructor; [ cbn; first [ exact I | discriminate | intros; discriminate ] | ]); constructor ].
    split; [ right; reflexivity | ]. split; [ discriminate | ]. split; [ discriminate | ].
    split; intros H; cbn in H; repeat (destruct H as [ H | H ]; [ discriminate H | ]); exact H. }
  split; [ reflexivity | ]. split; [ vm_compute; reflexivity | ]. split; [ reflexivity | ]. split; reflexivity.
Qed.
(** With --verbose the option and its value are also taken for names of files. *)
Theorem C70_command_line_refuted :
  exists sd si sl l q, Forall item_ok l /\ asks_all sd si sl l request0 q /\
    let m := parse_args sd si sl (command_line l) in
    mp_status m = success /\ q_files q = [str "a.lp"] /\ mp_files m = [str "--verbose"; str "5"; str "a.lp"].
Proof.
  exists x_double, x_int, x_int, [I_verbose F_next (str "5"); I_file (str "a.lp")].
  eexists. split; [ constructor; [ discriminate | constructor; [ discriminate | constructor ] ] | ]. split.
  { eapply Asks_cons.
    { exists 5. split; [ split; [ vm_compute; lia | reflexivity ] | ]. split; [ lia | reflexivity ]. }
    eapply Asks_cons; [ reflexivity | apply Asks_nil ]. }
  split; [ vm_compute; reflexivity | ]. split; [ reflexivity | ]. vm_compute. reflexivity.
Qed.
Print Assumptions C70_command_line_refuted.

(** C71. The error message quotes the argument at fault, at the position of the rejected option. *)
Theorem C71_message_position_partial :
  forall (sd : text -> scan dbl) (si sl : text -> scan Z) l q f sep name v rest,
  Forall item_ok l -> forallb (fun i => negb (is_verbose i)) l = true -> asks_all sd si sl l request0 q ->
  item_ok (I_param f sep name v) -> ~ (exists a, name = [a; "l"%char]) ->
  (forall n x, name = str (option_name n) -> ~ accepts sd si sl n v x) ->
  let args := command_line l ++ item_args (I_param f sep name v) ++ rest in
  let m := parse_args sd si sl args in
  mp_status m <> success /\
  nth_error (str "baryonyx" :: args) (mp_arg m) = hd_error (item_args (I_param f sep name v)) /\
  ((forall n, name <> str (option_name n)) -> status_string (mp_status m) = Some "unknown").
Proof.
  intros sd si sl l q f sep name v rest H1 H2 H3 H4 H5 H6 args m.
  pose proof (parse_rejected sd si sl l q f sep name v rest H1 H2 H3 H4 H5 H6) as (K1 & K2 & K3 & K4). cbv zeta in K1, K2, K3, K4. subst m. fold args in K1, K2, K3, K4.
  split; [ exact K2 | ]. split.
  - rewrite K4. cbn [Nat.add nth_error]. unfold args. rewrite nth_error_app2, Nat.sub_diag by lia. destruct f; reflexivity.
  - intros Hn. rewrite K1, assign_parameter_unknown by assumption. reflexivity.
Qed.
Print Assumptions C71_message_position_partial.
Example C71_example : asks_all x_double x_int x_int [I_file (str "a.lp")] request0
    (mk_request default_params [str "a.lp"] None None 6 false false) /\
  (forall n x, str "theta" = str (option_name n) -> ~ accepts x_double x_int x_int n (str "2") x) /\
  item_ok (I_param F_glued "="%char (str "theta") (str "2")).
Proof.
  split; [ eapply Asks_cons; [ reflexivity | apply Asks_nil ] | ]. split.
  - intros n x E. change (str (option_name N_theta) = str (option_name n)) in E. apply option_name_inj in E. subst n.
    intros (d & _ & (_ & H) & (w & -> & W)). change (x_double (str "2")) with (Scan_value (dofZ 2)) in H.
    destruct H as [ H | [ H _ ] ]; [ | discriminate H ]. injection H as <-. destruct W as [ _ W ]. apply W. reflexivity.
  - split; [ right; reflexivity | ]. split; [ discriminate | ]. split; [ discriminate | ].
    split; intros H; cbn in H; repeat (destruct H as [ H | H ]; [ discriminate H | ]); exact H.
Qed.
(** The message for a bad value of a parameter names the next parameter, and there is no message for
    the last one. *)
Theorem C71_message_name_refuted :
  (exists sd si sl args, let m := parse_args sd si sl args in
     args = [str "-p"; str "theta=2"] /\ mp_status m <> success /\ status_string (mp_status m) = Some "delta") /\
  (exists sd si sl args, let m := parse_args sd si sl args in
     args = [str "-p"; str "seed=-7"] /\ mp_status m <> success /\ status_string (mp_status m) = None).
Proof.
  split; exists x_double, x_int, x_int; eexists; (split; [ reflexivity | ]; split; [ vm_compute; discriminate | vm_compute; reflexivity ]).
Qed.
Print Assumptions C71_message_name_refuted.

(** C72. --check f: the name of the solution file is recorded (C70_command_line_partial), but the
    check is never made: no command line sets its flag. *)
Theorem C72_check_is_made_refuted :
  forall (sd : text -> scan dbl) (si sl : text -> scan Z) args, mp_check (parse_args sd si sl args) = false.
Proof. intros sd si sl args. apply check_never. reflexivity. Qed.
Print Assumptions C72_check_is_made_refuted.
Theorem C72_check_name_partial :
  forall (sd : text -> scan dbl) (si sl : text -> scan Z) l q f,
  Forall item_ok l -> forallb (fun i => negb (is_verbose i)) l = true -> asks_all sd si sl l request0 q ->
  q_check q = Some f -> mp_check_filename (parse_args sd si sl (command_line l)) = f.
Proof.
  intros sd si sl l q f H1 H2 H3 H4. destruct (parse_understood sd si sl l q H1 H2 H3) as ((_ & _ & _ & _ & _ & _ & U) & _).
  rewrite H4 in U. exact U.
Qed.
Print Assumptions C72_check_name_partial.

(** C73. The values of the help message: the ones of these parameters are accepted. *)
Definition documented (sd : text -> scan dbl) (si sl : text -> scan Z) (n : pname) (t : text) : Prop :=
  let real lo hi := exists q, real_text sd t (Fin q) /\ (lo <= q <= hi)%Q in
  let reals lo := exists q, real_text sd t (Fin q) /\ (lo <= q)%Q in
  let ints lo hi := exists z, int_text si t z /\ lo <= z <= hi in
  let one_of l := exists s, In s l /\ t = str s in
  match n with
  | N_limit => exists z, long_text sl t z
  | N_time_limit | N_delta | N_pushing_objective_amplifier | N_pushing_k_factor => reals 0%Q
  | N_w => exists q, real_text sd t (Fin q) /\ (0 <= q <= inject_Z ((2 ^ 53 - 1) * 2 ^ 971))%Q
  | N_float_type => one_of ["float"; "double"; "longdouble"]
  | N_observer => one_of ["none"; "pnm"; "file"]
  | N_storage => one_of ["one"; "bound"; "five"]
  | N_print_level => ints 0 2
  | N_pre_order => one_of ["none"; "memory"; "less-greater-equal"; "less-equal-greater"; "greater-less-equal"; "greater-equal-less";
      "equal-less-greater"; "equal-greater-less"; "p1"; "p2"; "p3"; "p4"]
  | N_order => one_of ["none"; "reversing"; "random-sorting"; "infeasibility-decr"; "infeasibility-incr"; "lagrangian-decr"; "lagrangian-incr"; "pi-sign-change"]
  | N_cost_norm => one_of ["l1"; "l2"; "loo"; "none"; "random"]
  | N_init_policy => one_of ["bastert"; "pessimistic-solve"; "optimistic-solve"; "cycle"]
  | N_alpha => real 0%Q 2%Q
  | N_pushes_limit | N_pushing_iteration_limit | N_thread | N_seed => ints 0 int_max
  | N_population_size => ints 5 int_max
  | _ => real 0%Q 1%Q
  end.
Definition follows_help (n : pname) : bool :=
  match n with N_limit | N_delta | N_pushing_objective_amplifier | N_pushing_k_factor | N_init_policy => false | _ => true end.
Theorem C73_documented_values_partial :
  forall (sd : text -> scan dbl) (si sl : text -> scan Z) n t p,
  follows_help n = true -> documented sd si sl n t ->
  fst (assign_parameter sd si sl p (str (option_name n)) t) = success.
Proof.
  intros sd si sl n t p Hn Hd. destruct (assign_parameter sd si sl p (str (option_name n)) t) as [s p'] eqn:E.
  apply assign_parameter_named in E. destruct E as [ (-> & _) | (_ & _ & H) ]; [ reflexivity | exfalso ].
  destruct n; try discriminate Hn; cbn [documented] in Hd; clear Hn.
  all: try solve [ destruct Hd as (q & Hq & B); eapply (H (V_d (Fin q))); exists (Fin q); split; [ reflexivity | split; [ exact Hq | exists q; auto ] ] ].
  all: try solve [ destruct Hd as (z & Hz & B); eapply (H (V_z z)); exists z; auto ].
  all: try solve [ destruct Hd as (w & Hw & ->); cbn [In] in Hw;
    repeat (destruct Hw as [ <- | Hw ]; [ first
      [ eapply (H (V_float _)); cbn; unfold word; tauto | eapply (H (V_obs _)); cbn; unfold word; tauto | eapply (H (V_storage _)); cbn; unfold word; tauto
      | eapply (H (V_pre _)); cbn; unfold word; tauto | eapply (H (V_order _)); cbn; unfold word; tauto | eapply (H (V_norm _)); cbn; unfold word; tauto ] | ]); destruct Hw ].
  all: try solve [ destruct Hd as (q & Hq & B); eapply H; exists (Fin q); split; [ exact Hq | reflexivity ] ].
Qed.
Print Assumptions C73_documented_values_partial.
Example C73_example : follows_help N_theta = true /\ documented x_double x_int x_int N_theta (str "0.5").
Proof.
  split; [ reflexivity | ]. exists (1 # 2)%Q. split; [ split; [ vm_compute; lia | left; vm_compute; reflexivity ] | split; discriminate ].
Qed.
(** delta=0, limit=-7 and init-policy=cycle are in the help message and rejected. *)
Theorem C73_documented_values_refuted :
  exists sd si sl p,
  (documented sd si sl N_delta (str "0") /\ fst (assign_parameter sd si sl p (str "delta") (str "0")) <> success) /\
  (documented sd si sl N_limit (str "-7") /\ fst (assign_parameter sd si sl p (str "limit") (str "-7")) <> success) /\
  (documented sd si sl N_init_policy (str "cycle") /\ fst (assign_parameter sd si sl p (str "init-policy") (str "cycle")) <> success).
Proof.
  exists x_double, x_int, x_int, default_params. repeat apply conj.
  - exists 0%Q. split; [ split; [ vm_compute; lia | left; vm_compute; reflexivity ] | discriminate ].
  - vm_compute. discriminate.
  - exists (-7). split; [ vm_compute; lia | vm_compute; reflexivity ].
  - vm_compute. discriminate.
  - exists "cycle". split; [ cbn; tauto | reflexivity ].
  - vm_compute. discriminate.
Qed.
Print Assumptions C73_documented_values_refuted.
