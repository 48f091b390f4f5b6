(** Proofs about the verbosity. *)
From Coq Require Import Ascii String Lia.
From Verif Require Import Base Problem_model Merged_model Solver_model Params_model Params_spec Cli_model Cli_spec Cli_proofs Cli_proofs2 Log_model Log_spec.
Open Scope string_scope.
Open Scope list_scope.
Open Scope Z_scope.

Lemma nearest_level z n : nearest z n -> number (convert_verbose_level z) = Z.of_nat n.
Proof.
  intros (H0 & H1 & H2 & H3). unfold convert_verbose_level.
  destruct (Z.ltb_spec z 0); [rewrite H1 by lia; reflexivity|].
  destruct (Z.ltb_spec 7 z); [rewrite H3 by lia; reflexivity|].
  rewrite H2 by lia. unfold kind_of.
  repeat match goal with |- context [Z.eqb ?a ?b] => destruct (Z.eqb_spec a b); [cbn [number]; lia|] end. cbn [number]. lia.
Qed.
Lemma within_number n k : (n <= 7)%nat -> (within n k <-> number k <= Z.of_nat n).
Proof.
  intros H. unfold within.
  assert (C : (n = 0 \/ n = 1 \/ n = 2 \/ n = 3 \/ n = 4 \/ n = 5 \/ n = 6 \/ n = 7)%nat) by lia.
  repeat destruct C as [C|C]; subst n; destruct k; cbn; split; intros K; try lia; try tauto;
  repeat (destruct K as [K|K]; [discriminate K|]); destruct K.
Qed.
Lemma stream_right k : its_stream k (stream_of k).
Proof. unfold its_stream. destruct k; cbn; tauto. Qed.
Lemma say_yes b c k msg : bd_log b = true -> (k = K_debug -> bd_debug b = true) -> number k <= number c -> say b c k msg = [(stream_of k, msg)].
Proof.
  intros E D L. unfold say. rewrite E. cbn [negb]. unfold is_loggable, level_of.
  destruct k; try (rewrite (proj2 (Z.leb_le _ _) L); reflexivity).
  rewrite (D eq_refl). cbn [negb]. rewrite (proj2 (Z.leb_le _ _) L). reflexivity.
Qed.
Lemma say_no b c k msg : (bd_log b = false \/ (k = K_debug /\ bd_debug b = false) \/ number c < number k) -> say b c k msg = [].
Proof.
  intros H. unfold say. destruct (bd_log b); [|reflexivity]. cbn [negb].
  destruct H as [H|[(-> & H)|H]]; [discriminate| |].
  - rewrite H. reflexivity.
  - apply Z.leb_gt in H. unfold is_loggable, level_of. destruct k; rewrite H; try reflexivity. destruct (bd_debug b); reflexivity.
Qed.
(** What a build at a level shows. *)
Definition ok_at (b : build) (n : nat) (tuning : bool) (k : kind) : Prop :=
  bd_log b = true /\ (k = K_debug -> bd_debug b = true) /\ within (if tuning then 4 else n) k.
Lemma printed_shown b z n l : nearest z n -> shown (ok_at b n) l (printed b (convert_verbose_level z) l).
Proof.
  intros N. pose proof (nearest_level z n N) as L. assert (N7 : (n <= 7)%nat) by apply N.
  assert (D : forall c m k msg, number c = Z.of_nat m -> (m <= 7)%nat ->
    (bd_log b = true /\ (k = K_debug -> bd_debug b = true) /\ within m k) /\ say b c k msg = [(stream_of k, msg)] \/
    ~ (bd_log b = true /\ (k = K_debug -> bd_debug b = true) /\ within m k) /\ say b c k msg = []).
  { intros c m k msg E M. pose proof (within_number m k M) as W.
    destruct (bd_log b) eqn:B; [|right; split; [intros (? & _); discriminate|apply say_no; auto]].
    destruct (Z_le_gt_dec (number k) (Z.of_nat m)) as [G|G].
    - destruct (bd_debug b) eqn:B2; [left|].
      + split; [tauto|]. apply say_yes; auto. lia.
      + assert (K : k = K_debug \/ k <> K_debug) by (destruct k; first [left; reflexivity|right; discriminate]).
        destruct K as [->|K]; [right; split; [intros (_ & H & _); now specialize (H eq_refl)|apply say_no; auto]|].
        left. split; [tauto|]. apply say_yes; [assumption|intros e; destruct (K e)|lia].
    - right. split; [intros (_ & _ & H); apply W in H; lia|]. apply say_no. right. right. lia. }
  induction l as [|e l IH]; [constructor|]. unfold printed in *. cbn [map List.concat].
  destruct e as [k msg|k msg|s msg]; cbn [happens].
  - destruct (D _ n k msg L N7) as [(A & ->)|(A & ->)]; cbn [app]; [apply Shown_yes; auto using stream_right|apply Shown_no; auto].
  - assert (N4 : (4 <= 7)%nat) by lia.
    destruct (D (tuning_priority (convert_verbose_level z)) 4%nat k msg eq_refl N4) as [(A & ->)|(A & ->)]; cbn [app]; [apply Shown_tuning_yes; auto using stream_right|apply Shown_tuning_no; auto].
  - cbn [app]. apply Shown_own, IH.
Qed.
Lemma its_stream_unique k s s' : its_stream k s -> its_stream k s' -> s = s'.
Proof.
  unfold its_stream. destruct k; cbn; intros [(-> & H)|(-> & H)] [(-> & K)|(-> & K)]; try reflexivity; exfalso;
  repeat (destruct H as [H|H]; [discriminate H|]); try exact H; repeat (destruct K as [K|K]; [discriminate K|]); exact K.
Qed.
Lemma part_refl {A} (l : list A) : part_of l l.
Proof. induction l; constructor; auto. Qed.
Lemma shown_part (ok ok' : bool -> kind -> Prop) : (forall t k, ok t k -> ok' t k) -> forall l o, shown ok l o -> forall o', shown ok' l o' -> part_of o o'.
Proof.
  intros I l o H. induction H; intros o' H'; inversion H'; subst; clear H'; try (exfalso; eauto; fail);
  repeat match goal with A : its_stream ?k ?s, B : its_stream ?k ?s' |- _ => rewrite (its_stream_unique _ _ _ B A) in *; clear B end;
  try (constructor; eauto; fail); eauto; exfalso; match goal with H : ~ ok' _ _ |- _ => apply H, I; assumption end.
Qed.
Lemma within_mono n n' k : (n <= n')%nat -> (n' <= 7)%nat -> within n k -> within n' k.
Proof. intros H H7 W. apply within_number; [lia|]. apply within_number in W; lia. Qed.
Lemma nearest_exists z : exists n, nearest z n.
Proof.
  unfold nearest. destruct (Z_lt_ge_dec z 0); [exists 0%nat; lia|]. destruct (Z_lt_ge_dec 7 z); [exists 7%nat; lia|].
  exists (Z.to_nat z). lia.
Qed.
Lemma nearest_mono z z' n n' : nearest z n -> nearest z' n' -> z <= z' -> (n <= n')%nat.
Proof. unfold nearest. intros. destruct (Z_lt_ge_dec z 0), (Z_lt_ge_dec 7 z'), (Z_lt_ge_dec 7 z), (Z_lt_ge_dec z' 0); lia. Qed.
(** Nothing of the library is on the standard output up to the level 4. *)
Lemma printed_low b z l : z <= 4 -> on Standard_output (printed b (convert_verbose_level z) l) = on Standard_output (own l).
Proof.
  intros H. destruct (nearest_exists z) as [n N]. pose proof (nearest_level z n N) as L.
  assert (N4 : (n <= 4)%nat) by (destruct N as (? & ? & ? & ?); destruct (Z_lt_ge_dec z 0); lia).
  assert (D : forall c k msg, number c <= 4 -> on Standard_output (say b c k msg) = []).
  { intros c k msg E. unfold say. destruct (negb (bd_log b)); [reflexivity|].
    unfold is_loggable, level_of. destruct k; cbn [number]; try (destruct (negb (_ <=? _)); reflexivity);
    try (replace (_ <=? number c) with false by (symmetry; apply Z.leb_gt; lia); cbn [negb]; try reflexivity). destruct (negb (bd_debug b)); reflexivity. }
  assert (A : forall x y, on Standard_output (x ++ y) = on Standard_output x ++ on Standard_output y).
  { intros x y. unfold on. rewrite filter_app. apply map_app. }
  induction l as [|e l IH]; [reflexivity|]. unfold printed in *. cbn [map List.concat]. rewrite A, IH.
  destruct e as [k msg|k msg|s msg]; cbn [happens own].
  - rewrite D by lia. reflexivity.
  - rewrite D by (cbn; lia). reflexivity.
  - change ((s, msg) :: own l) with ([(s, msg)] ++ own l). now rewrite A.
Qed.
(** ** The command line *)
Section Cli.
Variables (sd : text -> scan dbl) (si sl : text -> scan Z).
Notation parse_from := (parse_from sd si sl).
Notation parse_turn := (parse_turn sd si sl).
Notation parse_args := (parse_args sd si sl).

Definition same_turn (a b : turn) : Prop :=
  match a, b with
  | Next n m, Next n' m' => n = n' /\ but_quiet m m'
  | Return_ m, Return_ m' => but_quiet m m'
  | _, _ => False
  end.
Lemma turn_same arg rest m m' : but_quiet m m' -> same_turn (parse_turn arg rest m) (parse_turn arg rest m').
Proof.
  intros (E1 & E2 & E3 & E4 & E5 & E6 & E7 & E8 & E9).
  assert (V : match verbose_step si arg rest m, verbose_step si arg rest m' with Some a, Some b => but_quiet a b | None, None => True | _, _ => False end).
  { unfold verbose_step. destruct (get_param arg rest "--verbose" "-v") as [[v two]|]; [|repeat split; assumption].
    destruct (assign_int si v 0 6); cbn [option_map]; [|exact I]. repeat split; cbn; assumption. }
  unfold Cli_model.parse_turn.
  destruct (_ || _); [repeat split; assumption|].
  destruct (_ || _); [repeat split; cbn; assumption|].
  destruct (_ || _); [repeat split; cbn; assumption|].
  destruct (get_param arg rest "--bench" "-b") as [[v two]|]; [repeat split; cbn; assumption|].
  destruct (_ || _); [repeat split; cbn; try assumption; now rewrite E1|].
  destruct (get_param arg rest "--auto" "-a") as [[v two]|]; [repeat split; cbn; try assumption; now rewrite E1|].
  destruct (verbose_step si arg rest m) as [n|], (verbose_step si arg rest m') as [n'|]; try contradiction; [|repeat split; cbn; assumption].
  clear E1 E2 E3 E4 E5 E6 E7 E8 E9. destruct V as (E1 & E2 & E3 & E4 & E5 & E6 & E7 & E8 & E9).
  destruct (get_param arg rest "--check" "-C") as [[v two]|]; [repeat split; cbn; assumption|].
  destruct (get_param arg rest "--param" "-p") as [[v two]|].
  - assert (P : but_quiet (param_step sd si sl v n) (param_step sd si sl v n')).
    { unfold Cli_model.param_step. destruct (split_argument v) as [[|a nm] [|c val]]; try (repeat split; cbn; assumption).
      rewrite E1. destruct (assign_parameter sd si sl (mp_params n') (a :: nm) (c :: val)) as [s p]. destruct s; repeat split; cbn; try assumption; reflexivity. }
    cbv zeta. pose proof P as P'. destruct P' as (_ & _ & _ & _ & _ & _ & _ & _ & E). rewrite E.
    destruct (mp_status (param_step sd si sl v n')); try exact P. split; [reflexivity|exact P].
  - destruct (text_eqb arg (str "--random")); [repeat split; cbn; try assumption; now rewrite E1|].
    destruct (text_eqb arg (str "--debug")); [repeat split; cbn; try assumption; now rewrite E1|].
    repeat split; cbn; try assumption. now rewrite E2.
Qed.
Lemma from_same args : forall i j skip m m', but_quiet m m' -> but_quiet (parse_from i skip args m) (parse_from j skip args m').
Proof.
  induction args as [|arg rest IH]; intros i j skip m m' H; [exact H|]. cbn [Cli_model.parse_from].
  destruct skip; [apply IH, H|].
  assert (B : but_quiet (set_arg i m) (set_arg j m')) by exact H.
  pose proof (turn_same arg rest _ _ B) as T.
  destruct (parse_turn arg rest (set_arg i m)) as [a n|n], (parse_turn arg rest (set_arg j m')) as [a' n'|n']; cbn [same_turn] in T; try contradiction.
  - destruct T as [-> T]. apply IH, T.
  - exact T.
Qed.
(** A property that every turn keeps. *)
Lemma turn_keeps (P : main_parameters -> Prop) :
  (forall f m, P m -> P (set_main_params f m)) -> (forall s m, P m -> P (set_status s m)) -> (forall i m, P m -> P (set_arg i m)) ->
  (forall m, P m -> P (set_quiet m)) -> (forall m, P m -> P (set_optimize m)) -> (forall v m, P m -> P (set_bench v m)) ->
  (forall v m, P m -> P (set_check_filename v m)) -> (forall z m, 0 <= z <= 6 -> P m -> P (set_verbose z m)) -> (forall v m, P m -> P (add_file v m)) ->
  forall args i skip m, P m -> P (parse_from i skip args m).
Proof.
  intros H1 H2 H3 H4 H5 H6 H7 H8 H9.
  assert (T : forall arg rest m, P m -> match parse_turn arg rest m with Next _ n => P n | Return_ n => P n end).
  { intros arg rest m H. unfold Cli_model.parse_turn.
    destruct (_ || _); [assumption|]. destruct (_ || _); [auto|]. destruct (_ || _); [auto|].
    destruct (get_param arg rest "--bench" "-b") as [[v two]|]; [auto|]. destruct (_ || _); [auto|].
    destruct (get_param arg rest "--auto" "-a") as [[v two]|]; [auto|].
    destruct (verbose_step si arg rest m) as [n|] eqn:E; [|auto].
    assert (Pn : P n).
    { unfold Cli_model.verbose_step in E. destruct (get_param arg rest "--verbose" "-v") as [[v two]|]; [|now injection E as <-].
      destruct (assign_int si v 0 6) as [z|] eqn:A; [|discriminate]. injection E as <-. apply assign_int_spec in A. apply H8; tauto. }
    destruct (get_param arg rest "--check" "-C") as [[v two]|]; [auto|].
    destruct (get_param arg rest "--param" "-p") as [[v two]|].
    - assert (Pp : P (param_step sd si sl v n)).
      { unfold Cli_model.param_step. destruct (split_argument v) as [[|a nm] [|c val]]; auto.
        destruct (assign_parameter sd si sl (mp_params n) (a :: nm) (c :: val)) as [s p]. destruct s; auto. }
      cbv zeta. destruct (mp_status (param_step sd si sl v n)); exact Pp.
    - destruct (text_eqb arg (str "--random")); [auto|]. destruct (text_eqb arg (str "--debug")); auto. }
  induction args as [|arg rest IH]; intros i skip m H; [exact H|]. cbn [Cli_model.parse_from]. destruct skip; [apply IH, H|].
  specialize (T arg rest (set_arg i m) (H3 _ _ H)). destruct (parse_turn arg rest (set_arg i m)); [apply IH, T|exact T].
Qed.
Lemma verbose_range args : 0 <= mp_verbose (parse_args args) <= 6.
Proof. apply (turn_keeps (fun m => 0 <= mp_verbose m <= 6)); auto. cbn. lia. Qed.
Lemma quiet_stays args i skip m : mp_quiet m = true -> mp_quiet (parse_from i skip args m) = true.
Proof. apply (turn_keeps (fun m => mp_quiet m = true)); auto. Qed.
Lemma quiet_first w args : w = str "--quiet" \/ w = str "-q" -> parse_args (w :: args) = parse_from 2 false args (set_quiet (set_arg 1 main0)).
Proof. intros [-> | ->]; reflexivity. Qed.

(** A first argument --verbose=t. *)
Definition shift (z : Z) (a : text) (q : request) : request :=
  mk_request (q_params q) (a :: q_files q) (q_check q) (q_bench q) z (q_optimize q) (q_quiet q).
Lemma asks_shift z a it q q' : is_verbose it = false -> asks sd si sl it q q' -> asks sd si sl it (shift z a q) (shift z a q').
Proof.
  intros V H. destruct it; cbn [asks is_verbose] in *; try discriminate V;
  try (subst q'; reflexivity);
  try (destruct H as (p & H1 & H2 & ->); exists p; repeat split; assumption).
  destruct H as (n & x & p & H1 & H2 & H3 & ->). exists n, x, p. repeat split; try assumption; apply H3.
Qed.
Lemma asks_all_shift z a l : forall q q', forallb (fun it => negb (is_verbose it)) l = true -> asks_all sd si sl l q q' -> asks_all sd si sl l (shift z a q) (shift z a q').
Proof.
  induction l as [|it l IH]; intros q q' V H; inversion H; subst; [constructor|]. cbn [forallb] in V. apply andb_true_iff in V. destruct V as [V1 V2].
  apply negb_true_iff in V1. econstructor; [apply asks_shift; eassumption|]. apply IH; assumption.
Qed.
Lemma verbose_first c t z l q : c = "="%char \/ c = ":"%char -> int_text si t z -> 0 <= z <= 6 -> Forall item_ok l -> forallb (fun it => negb (is_verbose it)) l = true ->
  asks_all sd si sl l request0 q ->
  let m := parse_args ((str "--verbose" ++ c :: t) :: command_line l) in mp_verbose m = z /\ mp_quiet m = q_quiet q /\ mp_status m = success.
Proof.
  intros C T Z Hok V A m. set (arg := (str "--verbose" ++ c :: t)) in *.
  assert (I : assign_int si t 0 6 = Some z) by (apply assign_int_spec; auto).
  assert (E : m = parse_from 2 false (command_line l) (add_file arg (set_verbose z (set_arg 1 main0)))).
  { unfold m, arg, Cli_model.parse_args. destruct C as [-> | ->]; cbn [Cli_model.parse_from];
    unfold Cli_model.parse_turn, Cli_model.verbose_step; cbn -[assign_int parse_from main0 command_line set_verbose add_file set_arg];
    rewrite I; cbn -[parse_from main0 command_line set_verbose add_file set_arg]; destruct (command_line l); reflexivity. }
  destruct (items_run sd si sl l (shift z arg request0) (shift z arg q) [] 2 (add_file arg (set_verbose z (set_arg 1 main0))) Hok V (asks_all_shift z arg l _ _ V A)) as (m' & E' & U & S).
  - repeat split.
  - reflexivity.
  - rewrite app_nil_r in E'. rewrite E' in E. cbn [Cli_model.parse_from] in E. rewrite E. destruct U as (_ & _ & U1 & _ & U2 & _). auto.
Qed.
Lemma asks_quiet l q q' : asks_all sd si sl l q q' -> q_quiet q' = q_quiet q || existsb (fun it => match it with I_quiet | I_quiet_short => true | _ => false end) l.
Proof.
  intros H. induction H as [|it l q q' q'' A _ IH]; cbn [existsb]; [now rewrite orb_false_r|].
  rewrite IH. destruct it; cbn [asks] in A;
  try (subst q'; cbn; rewrite ?orb_false_r, ?orb_true_r; reflexivity);
  try (destruct A as (p & H1 & H2 & ->); reflexivity).
  destruct A as (n & x & p & H1 & H2 & H3 & ->). reflexivity.
Qed.
End Cli.
