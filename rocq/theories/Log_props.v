(** Property theorems C148, C149: which messages are printed. *)
From Coq Require Import Ascii String QArith Lia.
From Verif Require Import Base Problem_model Merged_model Solver_model Params_model Params_spec Cli_model Cli_spec Cli_proofs Cli_proofs2 Cli_props
  Log_model Log_spec Log_proofs.
Open Scope string_scope.
Open Scope list_scope.
Open Scope Z_scope.

(** C148. For every integer given as the verbosity and every run, the messages of the library that are printed are the ones whose
    severity is within the level (brought back to 0..7), in order and each on its stream; the ones of the tuning are the ones within
    the level 4, whatever the verbosity. The messages of the level 7 need a build for debugging. *)
Theorem C148_messages_of_the_level : forall b z n l, with_messages b -> nearest z n ->
  shown (fun tuning k => (k = K_debug -> bd_debug b = true) /\ within (if tuning then 4 else n) k) l (printed b (convert_verbose_level z) l).
Proof.
  intros b z n l B N. pose proof (printed_shown b z n l N) as H. unfold with_messages in B.
  assert (I1 : forall t k, ok_at b n t k -> (k = K_debug -> bd_debug b = true) /\ within (if t then 4 else n)%nat k) by (unfold ok_at; tauto).
  assert (I2 : forall t k, ~ ok_at b n t k -> ~ ((k = K_debug -> bd_debug b = true) /\ within (if t then 4 else n)%nat k)) by (unfold ok_at; tauto).
  induction H; [apply Shown_nil|apply Shown_own; assumption|apply Shown_yes|apply Shown_no|apply Shown_tuning_yes|apply Shown_tuning_no]; auto.
  - exact (I1 _ _ H).
  - exact (I2 _ _ H).
  - exact (I1 _ _ H).
  - exact (I2 _ _ H).
Qed.
Print Assumptions C148_messages_of_the_level.
(** A larger verbosity adds messages and removes none. *)
Theorem C148_more_verbose_adds : forall b z z' l, z <= z' ->
  part_of (printed b (convert_verbose_level z) l) (printed b (convert_verbose_level z') l).
Proof.
  intros b z z' l H. destruct (nearest_exists z) as [n N], (nearest_exists z') as [n' N'].
  refine (shown_part _ _ _ l _ (printed_shown b z n l N) _ (printed_shown b z' n' l N')).
  intros t k (K1 & K2 & K3). split; [exact K1|]. split; [exact K2|]. destruct t; [exact K3|].
  apply (within_mono n); [exact (nearest_mono z z' n n' N N' H)|apply N'|exact K3].
Qed.
Print Assumptions C148_more_verbose_adds.
(** Whatever the command line, the messages of the level 7 are never printed by the tool. *)
Theorem C148_tool_never_debugs : forall sd si sl args b k msg,
  k = K_debug -> printed b (tool_level (parse_args sd si sl args)) [Library k msg] = [].
Proof.
  intros sd si sl args b k msg ->. unfold printed. cbn [map List.concat happens]. rewrite app_nil_r. apply say_no. right. right.
  unfold tool_level. pose proof (verbose_range sd si sl args) as V.
  set (v := if mp_quiet _ then 3 else _). assert (R : 0 <= v <= 6) by (unfold v; destruct (mp_quiet _); lia).
  rewrite (nearest_level v (Z.to_nat v)) by (unfold nearest; lia). cbn [number]. lia.
Qed.
Print Assumptions C148_tool_never_debugs.
(** The option --verbose=t sets the level to the number of t, unless --quiet is there: then it is 3. *)
Theorem C148_level_of_the_tool : forall sd si sl c t z l q n, c = "="%char \/ c = ":"%char ->
  int_text si t z -> 0 <= z <= 6 -> Forall item_ok l -> forallb (fun it => negb (is_verbose it)) l = true -> asks_all sd si sl l request0 q ->
  n = (if existsb (fun it => match it with I_quiet | I_quiet_short => true | _ => false end) l then 3%nat else Z.to_nat z) ->
  let m := parse_args sd si sl ((str "--verbose" ++ c :: t) :: command_line l) in
  mp_status m = success /\
  forall b evs, with_messages b ->
    shown (fun tuning k => (k = K_debug -> bd_debug b = true) /\ within (if tuning then 4 else n) k) evs (printed b (tool_level m) evs).
Proof.
  intros sd si sl c t z l q n C T Z Hok V A En m. pose proof (verbose_first sd si sl c t z l q C T Z Hok V A) as (H1 & H2 & H3).
  fold m in H1, H2, H3. split; [exact H3|]. intros b evs B.
  rewrite (asks_quiet sd si sl l _ _ A) in H2. cbn [request0 q_quiet orb] in H2. unfold tool_level. rewrite H1, H2.
  apply C148_messages_of_the_level; [exact B|]. rewrite En. unfold nearest. destruct (existsb _ l); lia.
Qed.
Print Assumptions C148_level_of_the_tool.
Definition x_int0 (t : text) : scan Z := if text_eqb t (str "0") then Scan_value 0 else if text_eqb t (str "5") then Scan_value 5 else Scan_none.
Definition x_run : list event :=
  [ Library K_info (str "problem reads from file"); Own Standard_output (str "  - output file"); Library K_notice (str "- auto-tune parameters (manual) starts");
    Tuning K_notice (str "  - optimization with theta"); Library K_err (str "Constraint is inconsistent"); Own Standard_error (str "definition problem error") ].
Example C148_example :
  with_messages (mk_build true false) /\ nearest 5 5 /\
  printed (mk_build true false) (tool_level (parse_args x_double x_int0 x_int0 [str "--verbose=5"; str "a.lp"])) x_run =
  [ (Standard_output, str "  - output file"); (Standard_output, str "- auto-tune parameters (manual) starts");
    (Standard_error, str "Constraint is inconsistent"); (Standard_error, str "definition problem error") ].
Proof. split; [reflexivity|]. split; [unfold nearest; lia|]. vm_compute. reflexivity. Qed.
(** What the automatic tuning says of the parameters it tries is printed at no level. *)
Theorem C148_tuning_is_silent : forall b z k msg, k = K_notice \/ k = K_info \/ k = K_debug ->
  printed b (convert_verbose_level z) [Tuning k msg] = [].
Proof.
  intros b z k msg H. unfold printed. cbn [map List.concat happens]. rewrite app_nil_r. apply say_no. right. right.
  unfold tuning_priority. destruct H as [-> |[-> | ->]]; cbn [number]; lia.
Qed.
Print Assumptions C148_tuning_is_silent.

(** C149. With --quiet as the first argument (or -q), whatever follows: the library prints nothing on the standard output, the level is the one
    of the errors, and the option changes nothing else of what the command line asks for.
    Missing: the messages of the errors and of the tool are printed all the same (C149_refuted). *)
Theorem C149_quiet_partial : forall sd si sl w args, w = str "--quiet" \/ w = str "-q" ->
  let m := parse_args sd si sl (w :: args) in
  but_quiet m (parse_args sd si sl args) /\
  forall b l, with_messages b ->
    on Standard_output (printed b (tool_level m) l) = on Standard_output (own l) /\
    shown (fun tuning k => within (if tuning then 4 else 3) k) l (printed b (tool_level m) l).
Proof.
  intros sd si sl w args W m. unfold m. rewrite (quiet_first sd si sl w args W). split.
  - unfold parse_args. apply from_same. repeat split.
  - intros b l B. unfold tool_level. rewrite quiet_stays by reflexivity. split; [apply printed_low; lia|].
    assert (N : nearest 3 3) by (unfold nearest; lia).
    pose proof (C148_messages_of_the_level b 3 3 l B N) as H.
    assert (D : forall t : bool, ~ within (if t then 4 else 3)%nat K_debug).
    { intros t D. apply within_number in D; [|destruct t; lia]. cbn [number] in D. destruct t; lia. }
    assert (I : forall (t : bool) k, within (if t then 4 else 3)%nat k -> (k = K_debug -> bd_debug b = true)).
    { intros t k K ->. destruct (D t K). }
    induction H; [apply Shown_nil|apply Shown_own; assumption|apply Shown_yes|apply Shown_no|apply Shown_tuning_yes|apply Shown_tuning_no]; auto.
    + exact (proj2 H).
    + intros K. apply H. split; [exact (I false k K)|exact K].
    + exact (proj2 H).
    + intros K. apply H. split; [exact (I true k K)|exact K].
Qed.
Print Assumptions C149_quiet_partial.
Example C149_example :
  printed (mk_build true false) (tool_level (parse_args x_double x_int0 x_int0 [str "-q"; str "-a"; str "manual"; str "a.lp"])) x_run =
  [ (Standard_output, str "  - output file"); (Standard_error, str "Constraint is inconsistent"); (Standard_error, str "definition problem error") ].
Proof. vm_compute. reflexivity. Qed.
(** The help says that --quiet removes any verbose message. What the tool itself prints is not concerned: for every command line and every run
    these messages are the same, in the same order, with and without it. And --quiet can add messages: after --verbose=0, which
    leaves the errors out, they are printed with it. *)
Theorem C149_refuted :
  (forall sd si sl w args b l, w = str "--quiet" \/ w = str "-q" -> (forall e : event, In e l -> exists s msg, e = Own s msg) ->
    printed b (tool_level (parse_args sd si sl (w :: args))) l = printed b (tool_level (parse_args sd si sl args)) l /\
    printed b (tool_level (parse_args sd si sl args)) l = own l) /\
  (exists sd si sl args, forall b msg, with_messages b ->
    printed b (tool_level (parse_args sd si sl args)) [Library K_err msg] = [] /\
    printed b (tool_level (parse_args sd si sl (args ++ [str "--quiet"]))) [Library K_err msg] = [(Standard_error, msg)]).
Proof.
  split.
  - intros sd si sl w args b l W H.
    assert (E : forall c, printed b c l = own l).
    { intros c. induction l as [|e l IH]; [reflexivity|]. unfold printed in *. cbn [map List.concat].
      rewrite IH by (intros; apply H; right; assumption). destruct (H e (or_introl eq_refl)) as (s & msg & ->). reflexivity. }
    rewrite !E. split; reflexivity.
  - exists x_double, x_int0, x_int0, [str "--verbose=0"; str "a.lp"]. intros b msg B. unfold with_messages in B.
    split; unfold printed; cbn [map List.concat happens]; rewrite app_nil_r.
    + apply say_no. right. right. vm_compute. reflexivity.
    + apply say_yes; [exact B|discriminate|]. vm_compute. discriminate.
Qed.
Print Assumptions C149_refuted.
(** In R, [verbose = FALSE] leaves the standard output to R: nothing of the library is printed on it. *)
Theorem C149_r_quiet : forall b l, on Standard_output (printed b (r_level false) l) = on Standard_output (own l).
Proof. intros b l. apply printed_low. lia. Qed.
Print Assumptions C149_r_quiet.
(** In R, [verbose = TRUE] prints the messages up to the level 6: the ones for debugging are never printed. *)
Theorem C149_r_verbose : forall b l, with_messages b ->
  shown (fun tuning k => within (if tuning then 4 else 6) k) l (printed b (r_level true) l).
Proof.
  intros b l B. assert (N : nearest 6 6) by (unfold nearest; lia). pose proof (C148_messages_of_the_level b 6 6 l B N) as H.
  change (r_level true) with (convert_verbose_level 6).
  assert (D : forall t : bool, ~ within (if t then 4 else 6)%nat K_debug) by (intros [|] K; cbn in K; repeat (destruct K as [K|K]; [discriminate|]); exact K).
  induction H; [apply Shown_nil|apply Shown_own; assumption|apply Shown_yes|apply Shown_no|apply Shown_tuning_yes|apply Shown_tuning_no]; auto.
  - exact (proj2 H).
  - intros K. apply H. split; [intros ->; exfalso; exact (D false K)|exact K].
  - exact (proj2 H).
  - intros K. apply H. split; [intros ->; exfalso; exact (D true K)|exact K].
Qed.
Print Assumptions C149_r_verbose.
(** An information is printed and a message for debugging is not. *)
Example C149_r_verbose_ex : printed (mk_build true true) (r_level true) [Library K_info (str "a"); Library K_debug (str "b")] = [(Standard_output, str "a")].
Proof. vm_compute. reflexivity. Qed.
