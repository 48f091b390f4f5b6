(** Proofs about the reader of solution files and its string_buffer. *)
From Coq Require Import Ascii Lia.
From Verif Require Import Base Problem_model Classify_model Validate_model ResultIO_model Utils_model Utils_proofs StringBuffer_model StringBuffer_spec.
Open Scope nat_scope.

Lemma inv_new : forall cap, sb_inv cap sb_new.
Proof. intros. split; [constructor|]. split; [cbn; lia|auto]. Qed.
Lemma size_length : forall b, size b = length (sb_nodes b).
Proof.
  intros [l p]. unfold size. cbn [sb_nodes]. assert (H : forall n, fold_left (fun c (_ : list ascii) => c + 1) l n = n + length l).
  { induction l as [|a l IH]; intros n; cbn [fold_left length]; [lia|rewrite IH; lia]. }
  apply H.
Qed.

(** Memory. *)
Lemma list_upd_len : forall A (l : list A) i x l', list_upd l i x = Some l' -> length l' = length l.
Proof.
  induction l as [|a l IH]; intros [|i] x l' H; cbn [list_upd] in H; try discriminate; [injection H as <-; reflexivity|].
  destruct (list_upd l i x) eqn:E; cbn [bind] in H; [|discriminate]. injection H as <-. cbn [length]. f_equal. eapply IH; eauto.
Qed.
Lemma append_memory : forall cap s b b' w t, sb_append cap b s = Some (b', w) ->
  (length (sb_nodes b) - 1) * (cap + 1) + sb_position b <= 2 * t -> (sb_nodes b = [] -> sb_position b = 0) ->
  (length (sb_nodes b') - 1) * (cap + 1) + sb_position b' <= 2 * (t + length s) /\ sb_nodes b' <> [].
Proof.
  intros cap s b b' w t H I Z0. unfold sb_append in H.
  destruct (Nat.eqb_spec (length (sb_nodes b)) 0) as [E|E]; cbn [orb] in H.
  - cbn [sb_nodes sb_position] in H. destruct (nth_error _ _); cbn [bind] in H; [|discriminate].
    destruct (write_at _ _ _); cbn [bind] in H; [|discriminate]. destruct (list_upd _ _ _) eqn:U; cbn [bind] in H; [|discriminate].
    injection H as <- <-. apply list_upd_len in U. rewrite app_length, E in U. cbn [sb_nodes sb_position]. rewrite U. cbn [length].
    split; [lia|]. intros K. rewrite K in U. discriminate.
  - destruct (Nat.ltb_spec cap (length s + sb_position b)) as [C|C].
    + cbn [sb_nodes sb_position] in H. destruct (nth_error _ _); cbn [bind] in H; [|discriminate].
      destruct (write_at _ _ _); cbn [bind] in H; [|discriminate]. destruct (list_upd _ _ _) eqn:U; cbn [bind] in H; [|discriminate].
      injection H as <- <-. apply list_upd_len in U. rewrite app_length in U. cbn [sb_nodes sb_position length] in *. rewrite U.
      split; [|intros K; rewrite K in U; cbn in U; lia].
      replace (length (sb_nodes b) + 1 - 1) with (S (length (sb_nodes b) - 1)) by lia. rewrite Nat.mul_succ_l. lia.
    + destruct (nth_error _ _); cbn [bind] in H; [|discriminate].
      destruct (write_at _ _ _); cbn [bind] in H; [|discriminate]. destruct (list_upd _ _ _) eqn:U; cbn [bind] in H; [|discriminate].
      injection H as <- <-. apply list_upd_len in U. cbn [sb_nodes sb_position] in *. rewrite U. split; [lia|]. intros K; rewrite K in U; cbn in U; lia.
Qed.
Lemma append_all_memory : forall cap l b b' ws t, sb_append_all cap b l = Some (b', ws) ->
  (length (sb_nodes b) - 1) * (cap + 1) + sb_position b <= 2 * t -> (sb_nodes b = [] -> sb_position b = 0) ->
  (length (sb_nodes b') - 1) * (cap + 1) + sb_position b' <= 2 * (t + total l).
Proof.
  intros cap. induction l as [|s l IH]; intros b b' ws t H I Z0; cbn [sb_append_all total fold_right] in *.
  - injection H as <- <-. lia.
  - destruct (sb_append cap b s) as [[b1 w]|] eqn:A; cbn [bind fst snd] in H; [|discriminate].
    destruct (sb_append_all cap b1 l) as [[b2 ws2]|] eqn:B; cbn [bind fst snd] in H; [|discriminate]. injection H as <- <-.
    destruct (append_memory _ _ _ _ _ _ A I Z0) as [J N]. specialize (IH _ _ _ _ B J (fun e => match N e with end)).
    fold (total l) in *. lia.
Qed.
Lemma append_all_fit : forall cap l b b' ws, sb_inv cap b -> sb_append_all cap b l = Some (b', ws) -> Forall (fun s => length s <= cap) l.
Proof.
  intros cap. induction l as [|s l IH]; intros b b' ws I H; [constructor|]. cbn [sb_append_all] in H.
  destruct (Nat.le_gt_cases (length s) cap) as [L|L].
  - destruct (append_ok cap b s I L) as (b1 & w & E & I1 & _). rewrite E in H. cbn [bind fst snd] in H.
    destruct (sb_append_all cap b1 l) as [[b2 ws2]|] eqn:B; cbn [bind] in H; [|discriminate]. constructor; [exact L|eapply IH; eauto].
  - rewrite (append_too_long cap b s I L) in H. discriminate.
Qed.

(** Solution files. *)
Lemma append_all_app : forall cap l s b, sb_append_all cap b (l ++ [s]) =
  do r <- sb_append_all cap b l; do r' <- sb_append cap (fst r) s; Some (fst r', snd r ++ [snd r']).
Proof.
  intros cap. induction l as [|a l IH]; intros s b; cbn [app sb_append_all bind fst snd].
  - destruct (sb_append cap b s); reflexivity.
  - destruct (sb_append cap b a) as [[b1 w]|]; cbn [bind fst snd]; [|reflexivity]. rewrite IH.
    destruct (sb_append_all cap b1 l) as [[b2 ws]|]; cbn [bind fst snd]; [|reflexivity]. destruct (sb_append cap b2 s); reflexivity.
Qed.
Definition stored (cap : nat) (a : sbuffer * list view * list bool) (r : list text * list bool) : Prop :=
  sb_append_all cap sb_new (fst r) = Some (fst a) /\ snd a = snd r.
Definition agree (cap : nat) (x : outcome (sbuffer * list view * list bool)) (y : outcome (list text * list bool)) : Prop :=
  match x, y with
  | Ok a, Ok r => stored cap a r
  | Throw, Throw => True
  | _, _ => False
  end.
Lemma append_none : forall cap s b, sb_inv cap b -> sb_append cap b s = None -> cap < length s.
Proof.
  intros cap s b Hs H. destruct (Nat.le_gt_cases (length s) cap) as [L|L]; [|exact L]. destruct (append_ok cap b s Hs L) as (b1 & w & E & _). congruence.
Qed.
Lemma store_line_spec : forall cap buf a r, stored cap a r ->
  (agree cap (store_line cap buf a) (read_line buf r)) \/
  (store_line cap buf a = Crash /\ exists s v, read_line buf r = Ok (fst r ++ [s], v) /\ cap < length s).
Proof.
  intros cap buf [[b ws] vs] [ns vs'] [H1 H2]. cbn [fst snd] in *. subst vs'. unfold store_line, read_line.
  destruct (match skip_spaces buf with c :: _ => Ascii.eqb c backslash | [] => false end); [left; split; [exact H1|reflexivity]|].
  destruct (find_equal buf) as [[l rr]|]; [|left; exact I]. destruct (to_int rr) as [v|]; [|left; exact I]. cbn [fst snd].
  assert (S : sb_inv cap b).
  { destruct (append_all_ok cap ns sb_new (inv_new cap) (append_all_fit _ _ _ _ _ (inv_new cap) H1)) as (b1 & ws1 & E1 & I1 & _). congruence. }
  destruct (sb_append cap b l) as [[b1 w]|] eqn:E.
  - left. split; cbn [fst snd]; [|reflexivity]. rewrite append_all_app, H1. cbn [bind fst snd]. rewrite E. reflexivity.
  - right. split; [reflexivity|]. eexists _, _. split; [reflexivity|]. apply (append_none _ _ _ S E).
Qed.
Lemma read_line_keeps : forall buf r r', read_line buf r = Ok r' -> exists m, fst r' = fst r ++ m.
Proof.
  intros buf r r' H. unfold read_line in H. destruct (match skip_spaces buf with c :: _ => Ascii.eqb c backslash | [] => false end).
  - injection H as <-. exists []. rewrite app_nil_r. reflexivity.
  - destruct (find_equal buf) as [[l rr]|]; [|discriminate]. destruct (to_int rr); [|discriminate]. injection H as <-. cbn. eauto.
Qed.
Lemma read_loop_keeps : forall input buf r r', read_loop input buf r = Ok r' -> exists m, fst r' = fst r ++ m.
Proof.
  induction input as [|c input IH]; intros buf r r' H; cbn [read_loop] in H.
  - destruct buf; [injection H as <-; exists []; rewrite app_nil_r; reflexivity|eapply read_line_keeps; eauto].
  - destruct (Ascii.eqb c nl); [|eapply IH; eauto]. destruct (read_line buf r) as [r1| |] eqn:E; cbn [obind] in H; try discriminate.
    destruct (read_line_keeps _ _ _ E) as [m1 E1]. destruct (IH _ _ _ H) as [m2 E2]. exists (m1 ++ m2). rewrite E2, E1, app_assoc. reflexivity.
Qed.
Lemma store_loop_spec : forall cap input buf a r, stored cap a r ->
  (agree cap (store_loop cap input buf a) (read_loop input buf r)) \/
  (store_loop cap input buf a = Crash /\ forall r', read_loop input buf r = Ok r' -> exists s, In s (fst r') /\ cap < length s).
Proof.
  intros cap. induction input as [|c input IH]; intros buf a r H; cbn [store_loop read_loop].
  - destruct buf as [|x buf]; [left; exact H|]. destruct (store_line_spec cap (x :: buf) a r H) as [K|(K1 & s & v & K2 & K3)]; [left; exact K|right].
    split; [exact K1|]. intros r' E. exists s. assert (Q : r' = (fst r ++ [s], v)) by congruence. subst. split; [cbn; apply in_or_app; right; left; reflexivity|exact K3].
  - destruct (Ascii.eqb c nl); [|apply IH; exact H]. destruct (store_line_spec cap buf a r H) as [K|(K1 & s & v & K2 & K3)].
    + destruct (store_line cap buf a) as [a'| |], (read_line buf r) as [r'| |]; cbn [agree obind] in *; try contradiction; [apply IH; exact K|left; exact I].
    + right. rewrite K1, K2. cbn [obind]. split; [reflexivity|]. intros r' E. destruct (read_loop_keeps _ _ _ _ E) as [m Em]. exists s. split; [|exact K3].
      rewrite Em. cbn [fst]. apply in_or_app; left. apply in_or_app; right; left; reflexivity.
Qed.
Lemma store_result_spec : forall cap input,
  agree cap (store_result cap input) (read_loop input [] ([], [])) \/
  (store_result cap input = Crash /\ forall r', read_loop input [] ([], []) = Ok r' -> exists s, In s (fst r') /\ cap < length s).
Proof. intros. apply store_loop_spec. split; reflexivity. Qed.

Lemma loop_one_line : forall input buf r, ~ In nl input -> buf ++ input <> [] -> read_loop input buf r = read_line (buf ++ input) r.
Proof.
  induction input as [|c input IH]; intros buf r H N; cbn [read_loop].
  - rewrite app_nil_r in *. destruct buf; [destruct (N eq_refl)|reflexivity].
  - destruct (Ascii.eqb_spec c nl) as [E|E]; [destruct H; left; auto|]. rewrite IH.
    + rewrite <- app_assoc. reflexivity.
    + intros K. apply H. right. exact K.
    + destruct buf; discriminate.
Qed.
Lemma store_one_line : forall cap input buf a, ~ In nl input -> buf ++ input <> [] -> store_loop cap input buf a = store_line cap (buf ++ input) a.
Proof.
  intros cap. induction input as [|c input IH]; intros buf r H N; cbn [store_loop].
  - rewrite app_nil_r in *. destruct buf; [destruct (N eq_refl)|reflexivity].
  - destruct (Ascii.eqb_spec c nl) as [E|E]; [destruct H; left; auto|]. rewrite IH.
    + rewrite <- app_assoc. reflexivity.
    + intros K. apply H. right. exact K.
    + destruct buf; discriminate.
Qed.
Lemma long_line_plain : forall n, ~ In nl (long_line n) /\ [] ++ long_line n <> [].
Proof.
  intros n. split.
  - intros H. apply in_app_or in H. destruct H as [H|[H|[H|[]]]]; try discriminate. apply repeat_spec in H. discriminate.
  - destruct n; discriminate.
Qed.
Lemma long_line_equal : forall n, find_equal (long_line n) = Some (repeat (ascii_of_nat 97) n, [ascii_of_nat 49]).
Proof. induction n as [|n IH]; [reflexivity|]. change (long_line (S n)) with (ascii_of_nat 97 :: long_line n). cbn [find_equal]. rewrite IH. reflexivity. Qed.
Lemma long_line_comment : forall n, match skip_spaces (long_line n) with c :: _ => Ascii.eqb c backslash | [] => false end = false.
Proof. destruct n; reflexivity. Qed.
Lemma long_line_crash : forall cap n, cap < n ->
  (exists r, read_result (long_line n) = Ok r) /\ store_result cap (long_line n) = Crash.
Proof.
  intros cap n H. destruct (long_line_plain n) as [P1 P2]. split.
  - unfold read_result. rewrite loop_one_line by assumption. unfold read_line. cbn [app]. rewrite long_line_comment, long_line_equal.
    change (to_int [ascii_of_nat 49]) with (Some 1%Z). cbn [fst snd obind]. eauto.
  - unfold store_result. rewrite store_one_line by assumption. unfold store_line. cbn [app]. rewrite long_line_comment, long_line_equal.
    change (to_int [ascii_of_nat 49]) with (Some 1%Z). cbn [fst snd]. rewrite (append_too_long cap sb_new _ (inv_new cap)); [reflexivity|].
    rewrite repeat_length. exact H.
Qed.
