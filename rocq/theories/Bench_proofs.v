(** Reading and writing a benchmark file. *)
From Coq Require Import QArith Ascii String.
From Verif Require Import Base Problem_model Params_model Utils_model Utils_spec Utils_proofs Writer_model ResultIO_model
  Dynarray_model Dynarray_spec Dynarray_proofs Bench_model Bench_spec.
Open Scope string_scope.
Open Scope list_scope.
Open Scope nat_scope.

Lemma csv_space_iff c : csv_space c = true <-> separator c.
Proof.
  unfold csv_space, separator, comma. rewrite orb_true_iff, Ascii.eqb_eq, existsb_exists. split; (intros [H|H]; [left; exact H|right]).
  - destruct H as (n & Hn & E). apply Nat.eqb_eq in E. rewrite E. cbn in Hn. lia.
  - exists (nat_of_ascii c). split; [|apply Nat.eqb_refl]. cbn. lia.
Qed.
Lemma is_blank_iff c : is_blank c = true <-> blank c.
Proof.
  unfold is_blank, blank. rewrite existsb_exists. split.
  - intros (n & Hn & E). apply Nat.eqb_eq in E. rewrite E. cbn in Hn. lia.
  - intros H. exists (nat_of_ascii c). split; [|apply Nat.eqb_refl]. cbn. lia.
Qed.
Lemma white_blank c : white c <-> blank c.
Proof. unfold white, blank. cbn [In]. lia. Qed.

Lemma name_ok_iff w : name_ok w = true <-> exists c, In c w /\ ~ blank c.
Proof.
  unfold name_ok, trim. destruct (right_trim_spec w) as [[-> Hw]|(a & c & b & Hs & Hb & Hc & ->)].
  - cbn. split; [discriminate|]. intros (c & Hi & Hn). rewrite Forall_forall in Hw. exfalso. apply Hn, white_blank, Hw, Hi.
  - destruct (left_trim_spec (a ++ [c])) as [[_ Hw]|(a' & c' & b' & Hs' & Ha' & Hc' & ->)].
    + exfalso. apply Hc. rewrite Forall_forall in Hw. apply Hw. apply in_or_app. right; left; reflexivity.
    + split; [|reflexivity]. intros _. exists c. split; [rewrite Hs; apply in_or_app; right; left; reflexivity|].
      intros K. apply Hc, white_blank, K.
Qed.

(** ** Lines and words *)
Lemma cut_line_app h r : (forall c, In c h -> c <> nl) -> cut_line (h ++ nl :: r) = (h, r).
Proof.
  induction h as [|c h IH]; intros H; cbn [app cut_line].
  - rewrite Ascii.eqb_refl. reflexivity.
  - destruct (Ascii.eqb_spec c nl) as [->|_]; [exfalso; apply (H nl); [left; reflexivity|reflexivity]|].
    rewrite IH; [reflexivity|]. intros c' Hc. apply H. right; exact Hc.
Qed.
Lemma cut_line_no_nl l : forall c, In c (fst (cut_line l)) -> c <> nl.
Proof.
  induction l as [|d l IH]; cbn [cut_line fst In]; [tauto|]. destruct (Ascii.eqb_spec d nl) as [->|Hd]; cbn [fst In]; [tauto|].
  intros c [<-|H]; [exact Hd|apply IH, H].
Qed.

Lemma split_commas_nonempty l : split_commas l <> [].
Proof.
  destruct l as [|c l]; cbn [split_commas]; [discriminate|]. destruct (Ascii.eqb c comma); [discriminate|].
  destruct (split_commas l); discriminate.
Qed.
Lemma split_commas_one a : (forall c, In c a -> c <> comma) -> split_commas a = [a].
Proof.
  induction a as [|c a IH]; intros H; cbn [split_commas]; [reflexivity|].
  destruct (Ascii.eqb_spec c comma) as [->|_]; [exfalso; apply (H comma); [left; reflexivity|reflexivity]|].
  rewrite IH; [reflexivity|]. intros d Hd. apply H. right; exact Hd.
Qed.
Lemma split_commas_app a r : (forall c, In c a -> c <> comma) -> split_commas (a ++ comma :: r) = a :: split_commas r.
Proof.
  induction a as [|c a IH]; intros H; cbn [app split_commas].
  - rewrite Ascii.eqb_refl. reflexivity.
  - destruct (Ascii.eqb_spec c comma) as [->|_]; [exfalso; apply (H comma); [left; reflexivity|reflexivity]|].
    rewrite IH; [reflexivity|]. intros d Hd. apply H. right; exact Hd.
Qed.
Lemma split_commas_parts a l : (forall s, In s (a :: l) -> forall c, In c s -> c <> comma) ->
  split_commas (a ++ List.concat (map (fun s => comma :: s) l)) = a :: l.
Proof.
  revert a. induction l as [|s l IH]; intros a H; cbn [map List.concat].
  - rewrite app_nil_r. apply split_commas_one. apply H. left; reflexivity.
  - cbn [app]. rewrite split_commas_app by (apply H; left; reflexivity). f_equal. apply IH.
    intros t Ht. apply H. right; exact Ht.
Qed.
Lemma split_commas_no_comma l : forall s, In s (split_commas l) -> forall c, In c s -> c <> comma.
Proof.
  induction l as [|d l IH]; cbn [split_commas In].
  - intros s [<-|[]] c [].
  - destruct (Ascii.eqb_spec d comma) as [->|Hd].
    + intros s [<-|H] c Hc; [destruct Hc|]. eapply IH; eassumption.
    + destruct (split_commas l) as [|f fs] eqn:E.
      * intros s [<-|[]] c [<-|[]]. exact Hd.
      * intros s [<-|H] c Hc.
        -- destruct Hc as [<-|Hc]; [exact Hd|]. apply (IH f); [left; reflexivity|exact Hc].
        -- apply (IH s); [right; exact H|exact Hc].
Qed.
Lemma split_commas_chars l : forall s, In s (split_commas l) -> forall c, In c s -> In c l.
Proof.
  induction l as [|d l IH]; cbn [split_commas In].
  - intros s [<-|[]] c [].
  - destruct (Ascii.eqb d comma).
    + intros s [<-|H] c Hc; [destruct Hc|]. right. eapply IH; eassumption.
    + destruct (split_commas l) as [|f fs] eqn:E.
      * intros s [<-|[]] c [<-|[]]. left; reflexivity.
      * intros s [<-|H] c Hc.
        -- destruct Hc as [<-|Hc]; [left; reflexivity|]. right. apply (IH f); [left; reflexivity|exact Hc].
        -- right. apply (IH s); [right; exact H|exact Hc].
Qed.

Lemma csv_words_read cur w s r : (forall c, In c w -> csv_space c = false) -> csv_space s = true -> rev cur ++ w <> [] ->
  csv_words cur (w ++ s :: r) = (rev cur ++ w, true) :: csv_words [] r.
Proof.
  revert cur. induction w as [|c w IH]; intros cur H Hs Hne; cbn [app csv_words].
  - rewrite Hs. rewrite app_nil_r in *. destruct cur; [exfalso; apply Hne; reflexivity|reflexivity].
  - rewrite (H c) by (left; reflexivity). rewrite IH; auto.
    + cbn [rev]. rewrite <- app_assoc. reflexivity.
    + intros d Hd. apply H. right; exact Hd.
    + cbn [rev]. rewrite <- app_assoc. exact Hne.
Qed.
Lemma csv_words_parts l : forall cur, (forall c, In c cur -> csv_space c = false) ->
  forall w g, In (w, g) (csv_words cur l) -> w <> [] /\ forall c, In c w -> csv_space c = false.
Proof.
  induction l as [|c l IH]; intros cur Hcur w g; cbn [csv_words].
  - destruct cur as [|d cur']; [intros []|]. intros [E|[]].
    assert (Hw : w = rev (d :: cur')) by congruence. subst w. split.
    + intros K. apply (f_equal (@List.length _)) in K. rewrite rev_length in K. discriminate K.
    + intros x Hx. apply Hcur. apply in_rev. exact Hx.
  - destruct (csv_space c) eqn:Ec.
    + destruct cur as [|d cur'].
      * apply IH. intros ? [].
      * intros [E|H].
        -- assert (Hw : w = rev (d :: cur')) by congruence. subst w. split.
           ++ intros K. apply (f_equal (@List.length _)) in K. rewrite rev_length in K. discriminate K.
           ++ intros x Hx. apply Hcur. apply in_rev. exact Hx.
        -- revert H. apply IH. intros ? [].
    + apply IH. intros x [<-|Hx]; [exact Ec|apply Hcur, Hx].
Qed.

Lemma part_chars w : is_part w -> forall c, In c w -> csv_space c = false.
Proof.
  intros [_ H] c Hc. destruct (csv_space c) eqn:E; [|reflexivity]. exfalso. apply (H c Hc). apply csv_space_iff, E.
Qed.

(** ** The header *)
Lemma read_solvers_ok l : (forall s, In s l -> is_solver_name s) -> (forall s, In s (removelast l) -> List.length s <> 1) ->
  read_solvers l = Some l.
Proof.
  induction l as [|s l IH]; intros H Hl; [reflexivity|].
  assert (Hs : name_ok s = true) by (apply name_ok_iff, (H s); left; reflexivity).
  destruct l as [|s' l'].
  - cbn. rewrite Hs. reflexivity.
  - change (read_solvers (s :: s' :: l')) with
      (if Nat.eqb (List.length s) 1 then None else if name_ok s then do r <- read_solvers (s' :: l'); Some (s :: r) else None).
    rewrite Hs. destruct (Nat.eqb_spec (List.length s) 1) as [E|_]; [exfalso; apply (Hl s); [left; reflexivity|exact E]|].
    rewrite IH; [reflexivity| |]; intros t Ht; [apply H; right; exact Ht|]. apply Hl. cbn [removelast]. right. exact Ht.
Qed.
Lemma read_solvers_same l r : read_solvers l = Some r -> r = l /\ (forall s, In s l -> name_ok s = true) /\
  (forall s, In s (removelast l) -> List.length s <> 1).
Proof.
  revert r. induction l as [|s l IH]; intros r E.
  - injection E as <-. split; [reflexivity|]. split; intros ? [].
  - destruct l as [|s' l'].
    + cbn in E. destruct (name_ok s) eqn:Es; [|discriminate E]. injection E as <-. split; [reflexivity|].
      split; [|intros ? []]. intros t [<-|[]]. exact Es.
    + change (read_solvers (s :: s' :: l')) with
        (if Nat.eqb (List.length s) 1 then None else if name_ok s then do r <- read_solvers (s' :: l'); Some (s :: r) else None) in E.
      destruct (Nat.eqb_spec (List.length s) 1) as [|Hl]; [discriminate E|]. destruct (name_ok s) eqn:Es; [|discriminate E].
      destruct (read_solvers (s' :: l')) as [r'|]; [|discriminate E]. cbn in E. injection E as <-.
      destruct (IH r' eq_refl) as (-> & H1 & H2). split; [reflexivity|]. split.
      * intros t [<-|Ht]; [exact Es|apply H1, Ht].
      * intros t [<-|Ht]; [exact Hl|apply H2, Ht].
Qed.

(** ** The rows *)
Section Rows.
Variable to_double : text -> option dbl.
Notation z := (dofZ 0).
(** The rows read so far; the last one may be incomplete. *)
Record holds (solvers : list text) (b : bench) (rows : list (text * list dbl)) : Prop := {
  h_solvers : bn_solvers b = solvers;
  h_models : bn_models b = map (fun r => (fst r, minimize)) rows;
  h_array : solvers <> [] -> exists calls, inv z 0 (List.length solvers) calls (bn_array b) /\ dy_rows (bn_array b) = List.length rows /\
    forall i r j v, nth_error rows i = Some r -> nth_error (snd r) j = Some v -> j < List.length solvers -> last_written z calls i j = v }.
Definition full (n : nat) (rows : list (text * list dbl)) : Prop := forall r, In r rows -> List.length (snd r) = n.
Definition names_ok (rows : list (text * list dbl)) : Prop := forall r, In r rows -> is_model_name (fst r).

Lemma nth_error_snoc {A} (l : list A) a i x : nth_error (l ++ [a]) i = Some x -> nth_error l i = Some x \/ i = List.length l /\ x = a.
Proof.
  intros H. destruct (Nat.lt_ge_cases i (List.length l)) as [L|L].
  - left. rewrite nth_error_app1 in H by exact L. exact H.
  - right. rewrite nth_error_app2 in H by exact L. destruct (i - List.length l) as [|k] eqn:E; cbn in H.
    + injection H as <-. split; [lia|reflexivity].
    + destruct k; discriminate H.
Qed.

Lemma holds_push solvers b rows w : holds solvers b rows ->
  holds solvers (mk_bench (bn_models b ++ [(w, minimize)]) (bn_solvers b)
                   (match List.length (bn_solvers b) with O => bn_array b | _ => dy_push_line z (bn_array b) end)) (rows ++ [(w, [])]).
Proof.
  intros [Hs Hm Ha]. constructor; cbn [bn_solvers bn_models bn_array].
  - exact Hs.
  - rewrite Hm, map_app. reflexivity.
  - intros Hne. destruct (Ha Hne) as (calls & Hi & Hr & Hc). rewrite Hs.
    destruct (List.length solvers) eqn:En; [destruct solvers; [contradiction|discriminate En]|].
    exists (Push_line :: calls). split; [apply push_inv; exact Hi|]. split.
    + unfold dy_push_line. destruct (Nat.ltb _ _); cbn [dy_rows]; rewrite app_length, Hr; cbn; lia.
    + intros i r j v Hn Hv Hj. cbn [last_written]. apply nth_error_snoc in Hn. destruct Hn as [Hn|[_ ->]].
      * eapply Hc; eassumption.
      * destruct j; discriminate Hv.
Qed.

Lemma holds_put solvers b rows w vs v left : solvers <> [] -> holds solvers b (rows ++ [(w, vs)]) ->
  List.length vs + S left = List.length solvers ->
  exists a, dy_set (bn_array b) (Nat.pred (dy_rows (bn_array b))) (List.length (bn_solvers b) - S left) v = Some a /\
    holds solvers (mk_bench (bn_models b) (bn_solvers b) a) (rows ++ [(w, vs ++ [v])]).
Proof.
  intros Hne [Hs Hm Ha] Hl. destruct (Ha Hne) as (calls & Hi & Hr & Hc).
  rewrite app_length in Hr. cbn in Hr.
  replace (Nat.pred (dy_rows (bn_array b))) with (List.length rows) by lia.
  replace (List.length (bn_solvers b) - S left) with (List.length vs) by (rewrite Hs; lia).
  destruct (set_inv z 0 (List.length solvers) calls (bn_array b) (List.length rows) (List.length vs) v Hi) as (a & E & Ha'); [lia|lia|].
  exists a. split; [exact E|]. constructor; cbn [bn_solvers bn_models bn_array].
  - exact Hs.
  - rewrite Hm, !map_app. reflexivity.
  - intros _. exists (Write (List.length rows) (List.length vs) v :: calls). split; [exact Ha'|]. split.
    + rewrite (inv_rows _ _ _ _ _ Ha'), app_length. cbn [rows_after]. rewrite <- (inv_rows _ _ _ _ _ Hi). cbn. lia.
    + intros i r j u Hn Hv Hj. cbn [last_written]. apply nth_error_snoc in Hn. destruct Hn as [Hn|[-> ->]].
      * assert (i < List.length rows) by (apply nth_error_Some; rewrite Hn; discriminate).
        destruct (Nat.eqb_spec (List.length rows) i) as [K|_]; [lia|]. cbn [andb].
        apply (Hc i r j u); [|exact Hv|exact Hj]. rewrite nth_error_app1 by assumption. exact Hn.
      * cbn [snd] in Hv. rewrite Nat.eqb_refl. cbn [andb]. apply nth_error_snoc in Hv. destruct Hv as [Hv|[-> ->]].
        -- assert (j < List.length vs) by (apply nth_error_Some; rewrite Hv; discriminate).
           destruct (Nat.eqb_spec (List.length vs) j) as [K|_]; [lia|].
           apply (Hc (List.length rows) (w, vs) j u); [|exact Hv|exact Hj].
           rewrite nth_error_app2 by lia. rewrite Nat.sub_diag. reflexivity.
        -- rewrite Nat.eqb_refl. reflexivity.
Qed.

(** Any text: no access is out of bounds, and a benchmark that is read is a table. *)
Definition state_ok (solvers : list text) (b : bench) (left : nat) : Prop :=
  match left with
  | O => exists rows, holds solvers b rows /\ full (List.length solvers) rows /\ names_ok rows
  | S _ => exists rows w vs, holds solvers b (rows ++ [(w, vs)]) /\ full (List.length solvers) rows /\ names_ok (rows ++ [(w, vs)]) /\
             List.length vs + left = List.length solvers
  end.
Lemma read_rows_table solvers ws : (forall w g, In (w, g) ws -> w <> [] /\ forall c, In c w -> csv_space c = false) ->
  forall left line b, state_ok solvers b left ->
  exists r, read_rows to_double ws left line b = Some r /\ forall b', r = inl b' -> state_ok solvers b' 0.
Proof.
  induction ws as [|[w good] ws IH]; intros Hws left line b Hok.
  - cbn. eexists. split; [reflexivity|]. intros b' E. destruct left; [|discriminate E]. injection E as <-. exact Hok.
  - cbn [read_rows]. assert (Hws' : forall w g, In (w, g) ws -> w <> [] /\ forall c, In c w -> csv_space c = false)
      by (intros; eapply Hws; right; eassumption).
    destruct left as [|left].
    + destruct good; cbn [negb]; [|eexists; split; [reflexivity|]; intros b' E; injection E as <-; exact Hok].
      destruct (name_ok w) eqn:Ew; [|eexists; split; [reflexivity|]; intros b' E; discriminate E].
      destruct Hok as (rows & Hh & Hf & Hn). pose proof (holds_push _ _ _ w Hh) as Hp.
      assert (Hnm : names_ok (rows ++ [(w, [])])).
      { intros r Hr. apply in_app_or in Hr. destruct Hr as [Hr|[<-|[]]]; [apply Hn, Hr|]. cbn [fst].
        destruct (Hws w true (or_introl eq_refl)) as [Hne Hc]. split.
        - split; [exact Hne|]. intros c Hin Hsep. apply csv_space_iff in Hsep. rewrite (Hc c Hin) in Hsep. discriminate Hsep.
        - apply name_ok_iff. exact Ew. }
      pose proof (h_solvers _ _ _ Hh) as Es.
      destruct (List.length (bn_solvers b)) as [|n] eqn:En.
      * apply IH; [exact Hws'|]. exists (rows ++ [(w, [])]). split; [exact Hp|]. split; [|exact Hnm].
        intros r Hr. apply in_app_or in Hr. destruct Hr as [Hr|[<-|[]]]; [apply Hf, Hr|]. cbn [snd List.length].
        rewrite <- Es. symmetry. exact En.
      * apply IH; [exact Hws'|]. exists rows, w, []. split; [exact Hp|]. split; [exact Hf|]. split; [exact Hnm|].
        rewrite <- Es. cbn [List.length]. lia.
    + destruct Hok as (rows & w0 & vs & Hh & Hf & Hn & Hl).
      assert (Hne : solvers <> []) by (intros ->; cbn in Hl; lia).
      destruct (holds_put solvers b rows w0 vs (cell_of to_double w) left Hne Hh Hl) as (a & Ea & Hp).
      rewrite Ea. cbn [bind]. apply IH; [exact Hws'|].
      assert (Hn' : names_ok (rows ++ [(w0, vs ++ [cell_of to_double w])])).
      { intros r Hr. apply in_app_or in Hr. destruct Hr as [Hr|[<-|[]]]; [apply Hn, in_or_app; left; exact Hr|].
        apply (Hn (w0, vs)). apply in_or_app. right; left; reflexivity. }
      destruct left as [|left].
      * exists (rows ++ [(w0, vs ++ [cell_of to_double w])]). split; [exact Hp|]. split; [|exact Hn'].
        intros r Hr. apply in_app_or in Hr. destruct Hr as [Hr|[<-|[]]]; [apply Hf, Hr|]. cbn [snd]. rewrite app_length. cbn. lia.
      * exists rows, w0, (vs ++ [cell_of to_double w]). split; [exact Hp|]. split; [exact Hf|]. split; [exact Hn'|].
        rewrite app_length. cbn. lia.
Qed.

(** The words of a row of a table. *)
Lemma words_of_row nm cells r : is_part nm -> Forall is_part cells ->
  csv_words [] (csv_line nm cells ++ r) = (nm, true) :: map (fun c => (c, true)) cells ++ csv_words [] r.
Proof.
  intros Hn Hc. unfold csv_line. rewrite <- !app_assoc.
  assert (K : forall w l, is_part w -> Forall is_part l ->
    csv_words [] (w ++ List.concat (map (fun s => ","%char :: s) l) ++ [ascii_of_nat 10] ++ r) =
    (w, true) :: map (fun c => (c, true)) l ++ csv_words [] r).
  { intros w l. revert w. induction l as [|s l IH]; intros w Hw Hl; cbn [map List.concat app].
    - change (csv_words [] (w ++ ascii_of_nat 10 :: r) = (w, true) :: csv_words [] r).
      rewrite csv_words_read; [reflexivity|apply part_chars, Hw|reflexivity|apply Hw].
    - inversion Hl as [|? ? Hs Hl']; subst. rewrite <- app_assoc.
      change (csv_words [] (w ++ ","%char :: (s ++ List.concat (map (fun s => ","%char :: s) l) ++ [ascii_of_nat 10] ++ r)) =
              (w, true) :: (s, true) :: map (fun c => (c, true)) l ++ csv_words [] r).
      rewrite csv_words_read; [|apply part_chars, Hw|reflexivity|apply Hw]. cbn [rev app]. f_equal. apply IH; assumption. }
  apply K; assumption.
Qed.

Lemma read_cells solvers rows w0 cells ws : solvers <> [] -> forall vs b line, holds solvers b (rows ++ [(w0, vs)]) ->
  List.length vs + List.length cells = List.length solvers -> cells <> [] ->
  exists b' line', read_rows to_double (map (fun c => (c, true)) cells ++ ws) (List.length cells) line b = read_rows to_double ws 0 line' b' /\ line' = (line + 1)%Z /\
    holds solvers b' (rows ++ [(w0, vs ++ map (cell_of to_double) cells)]).
Proof.
  intros Hne. induction cells as [|c cells IH]; intros vs b line Hh Hl Hc; [contradiction|].
  cbn [map app List.length read_rows] in *.
  destruct (holds_put solvers b rows w0 vs (cell_of to_double c) (List.length cells) Hne Hh Hl) as (a & Ea & Hp).
  rewrite Ea. cbn [bind]. destruct cells as [|c' cells'].
  - cbn [map app List.length]. eexists _, _. split; [reflexivity|]. split; [reflexivity|]. exact Hp.
  - destruct (IH (vs ++ [cell_of to_double c]) _ line Hp) as (b' & line' & E & El & Hh'); [rewrite app_length; cbn in *; lia|discriminate|].
    exists b', line'. split; [exact E|]. split; [exact El|]. rewrite <- app_assoc in Hh'. exact Hh'.
Qed.

Lemma read_table solvers rows rest : (forall r, In r rows -> is_model_name (fst r) /\ Forall is_part (snd r) /\ List.length (snd r) = List.length solvers) ->
  forall done b line, holds solvers b done ->
  exists b' line', read_rows to_double (csv_words [] (List.concat (map (fun r => csv_line (fst r) (snd r)) rows) ++ rest)) 0 line b
      = read_rows to_double (csv_words [] rest) 0 line' b' /\ line' = (line + Z.of_nat (List.length rows))%Z /\
    holds solvers b' (done ++ map (fun r => (fst r, map (cell_of to_double) (snd r))) rows).
Proof.
  induction rows as [|[nm cells] rows IH]; intros H done b line Hh.
  - cbn [map List.concat app]. exists b, line. rewrite app_nil_r. split; [reflexivity|]. split; [cbn; lia|exact Hh].
  - destruct (H (nm, cells) (or_introl eq_refl)) as ([Hp Hb] & Hc & Hl). cbn [fst snd] in *.
    cbn [map List.concat fst snd]. rewrite <- app_assoc, words_of_row by assumption.
    cbn [read_rows negb]. rewrite (proj2 (name_ok_iff nm) Hb).
    pose proof (holds_push _ _ _ nm Hh) as Hpush. rewrite (h_solvers _ _ _ Hh) in *.
    destruct (List.length solvers) as [|n] eqn:En.
    + destruct cells; [|discriminate Hl]. cbn [map app].
      destruct (IH (fun r Hr => H r (or_intror Hr)) _ _ (line + 1)%Z Hpush) as (b' & line' & E & El & Hh').
      exists b', line'. split; [exact E|]. split; [cbn [List.length]; lia|]. rewrite <- app_assoc in Hh'. exact Hh'.
    + rewrite <- Hl. destruct (read_cells solvers done nm cells (csv_words [] (List.concat (map (fun r => csv_line (fst r) (snd r)) rows) ++ rest))
        ltac:(intros ->; discriminate En) [] _ line Hpush) as (b1 & l1 & E1 & El1 & H1); [cbn; lia|intros ->; discriminate Hl|].
      rewrite E1. destruct (IH (fun r Hr => H r (or_intror Hr)) _ _ l1 H1) as (b' & line' & E & El & Hh').
      exists b', line'. split; [exact E|]. split; [cbn [List.length]; lia|]. rewrite <- app_assoc in Hh'. exact Hh'.
Qed.

Lemma holds_start solvers : holds solvers (mk_bench [] solvers (match solvers with [] => dy_new | _ => dy_init z (List.length solvers) dy_new end)) [].
Proof.
  constructor; cbn [bn_solvers bn_models bn_array]; auto.
  intros Hne. destruct solvers as [|s l]; [contradiction|]. exists []. split; [apply init_inv|]. split; [reflexivity|].
  intros i r j v Hi. destruct i; discriminate Hi.
Qed.

Lemma holds_contains solvers b rows : holds solvers b rows -> full (List.length solvers) rows -> contains b solvers rows.
Proof.
  intros [Hs Hm Ha] Hf. split; [exact Hs|]. split; [rewrite Hm, map_map; reflexivity|].
  intros i r Hi. assert (Hl : List.length (snd r) = List.length solvers) by (apply Hf; eapply nth_error_In; exact Hi).
  split; [exact Hl|]. intros j v Hj.
  assert (j < List.length solvers) by (rewrite <- Hl; apply nth_error_Some; rewrite Hj; discriminate).
  destruct (Ha ltac:(intros ->; cbn in *; lia)) as (calls & Hi' & Hr & Hc).
  unfold dy_get. rewrite (inv_cols _ _ _ _ _ Hi'). rewrite (inv_cell _ _ _ _ _ Hi').
  - f_equal. eapply Hc; eassumption.
  - assert (i < List.length rows) by (apply nth_error_Some; rewrite Hi; discriminate).
    pose proof (inv_cap _ _ _ _ _ Hi'). lia.
  - assumption.
Qed.

(** ** load *)
Lemma concat_cons_chars (l : list text) c : In c (List.concat (map (fun s => comma :: s) l)) -> c = comma \/ exists s, In s l /\ In c s.
Proof.
  induction l as [|s l IH]; cbn; [tauto|]. intros [<-|H]; [left; reflexivity|].
  apply in_app_or in H. destruct H as [H|H]; [right; exists s; auto|].
  destruct (IH H) as [->|(t & Ht & Hc)]; [left; reflexivity|right; exists t; auto].
Qed.

Lemma load_header solvers rest : (forall s, In s solvers -> is_solver_name s) -> (forall s, In s (removelast solvers) -> List.length s <> 1) ->
  load to_double (csv_line (str "file") solvers ++ rest) =
  read_rows to_double (csv_words [] rest) 0 2 (mk_bench [] solvers (match solvers with [] => dy_new | _ => dy_init z (List.length solvers) dy_new end)).
Proof.
  intros H Hl. unfold load, csv_line. rewrite <- !app_assoc.
  set (h := str "file" ++ List.concat (map (fun s => ","%char :: s) solvers)).
  assert (E : getline (str "file" ++ List.concat (map (fun s => ","%char :: s) solvers) ++ [ascii_of_nat 10] ++ rest) = Some (h, rest)).
  { rewrite app_assoc. fold h. change ([ascii_of_nat 10] ++ rest) with (nl :: rest).
    unfold getline. rewrite cut_line_app.
    - unfold h. cbn [str list_ascii_of_string app]. reflexivity.
    - intros c Hc. unfold h in Hc. apply in_app_or in Hc. destruct Hc as [Hc|Hc].
      + cbn in Hc. destruct Hc as [<-|[<-|[<-|[<-|[]]]]]; discriminate.
      + apply concat_cons_chars in Hc. destruct Hc as [->|(s & Hs & Hc)]; [discriminate|]. apply (H s Hs), Hc. }
  rewrite E. unfold h. change ","%char with comma. rewrite split_commas_parts.
  - cbn [tl]. rewrite read_solvers_ok by assumption. reflexivity.
  - intros s [<-|Hs] c Hc.
    + cbn in Hc. destruct Hc as [<-|[<-|[<-|[<-|[]]]]]; discriminate.
    + apply (H s Hs), Hc.
Qed.

Lemma load_table solvers rows :
  (forall s, In s solvers -> is_solver_name s) -> (forall s, In s (removelast solvers) -> List.length s <> 1) ->
  (forall r, In r rows -> is_model_name (fst r) /\ Forall is_part (snd r) /\ List.length (snd r) = List.length solvers) ->
  exists b, load to_double (csv_file solvers rows) = Some (inl b) /\
    contains b solvers (map (fun r => (fst r, map (cell_of to_double) (snd r))) rows).
Proof.
  intros Hs Hl Hr. unfold csv_file. rewrite load_header by assumption.
  destruct (read_table solvers rows [] Hr [] _ 2%Z (holds_start solvers)) as (b & line & E & _ & Hh).
  rewrite app_nil_r in E. exists b. split; [exact E|]. apply holds_contains; [exact Hh|].
  intros r Hin. cbn [app] in Hin. apply in_map_iff in Hin. destruct Hin as (r0 & <- & Hin). cbn [snd]. rewrite map_length.
  apply (Hr r0 Hin).
Qed.

(** The line of an error: a row whose name is blank, or the last row when it is too short. *)
Lemma load_bad_name solvers rows nm rest :
  (forall s, In s solvers -> is_solver_name s) -> (forall s, In s (removelast solvers) -> List.length s <> 1) ->
  (forall r, In r rows -> is_model_name (fst r) /\ Forall is_part (snd r) /\ List.length (snd r) = List.length solvers) ->
  is_part nm -> (forall c, In c nm -> blank c) ->
  load to_double (csv_file solvers rows ++ nm ++ ","%char :: rest) = Some (inr (model_name_error (2 + Z.of_nat (List.length rows)))).
Proof.
  intros Hs Hl Hr Hp Hb. unfold csv_file. rewrite <- app_assoc, load_header by assumption.
  destruct (read_table solvers rows (nm ++ ","%char :: rest) Hr [] _ 2%Z (holds_start solvers)) as (b & line & E & -> & Hh). rewrite E.
  rewrite csv_words_read; [|apply part_chars, Hp|reflexivity|apply Hp]. cbn [read_rows negb rev app].
  destruct (name_ok nm) eqn:En; [|reflexivity]. apply name_ok_iff in En. destruct En as (c & Hc & Hnb). exfalso. apply Hnb, Hb, Hc.
Qed.
Lemma read_short solvers rows w0 cells : solvers <> [] -> forall vs b line left, holds solvers b (rows ++ [(w0, vs)]) ->
  List.length vs + left = List.length solvers -> List.length cells < left ->
  read_rows to_double (map (fun c => (c, true)) cells) left line b = Some (inr (read_data_error line)).
Proof.
  intros Hne. induction cells as [|c cells IH]; intros vs b line left Hh Hl Hc; cbn [map read_rows List.length] in *.
  - destruct left; [lia|reflexivity].
  - destruct left as [|left]; [lia|]. rewrite (h_solvers _ _ _ Hh).
    destruct (holds_put solvers b rows w0 vs (cell_of to_double c) left Hne Hh Hl) as (a & Ea & Hp).
    rewrite (h_solvers _ _ _ Hh) in Ea, Hp. rewrite Ea. cbn [bind]. destruct left as [|left]; [lia|].
    apply (IH (vs ++ [cell_of to_double c])); [exact Hp|rewrite app_length; cbn; lia|lia].
Qed.
Lemma load_short_row solvers rows nm cells :
  (forall s, In s solvers -> is_solver_name s) -> (forall s, In s (removelast solvers) -> List.length s <> 1) ->
  (forall r, In r rows -> is_model_name (fst r) /\ Forall is_part (snd r) /\ List.length (snd r) = List.length solvers) ->
  is_model_name nm -> Forall is_part cells -> List.length cells < List.length solvers ->
  load to_double (csv_file solvers rows ++ csv_line nm cells) = Some (inr (read_data_error (2 + Z.of_nat (List.length rows)))).
Proof.
  intros Hs Hl Hr [Hp Hb] Hc Hlt. unfold csv_file. rewrite <- app_assoc, load_header by assumption.
  destruct (read_table solvers rows (csv_line nm cells) Hr [] _ 2%Z (holds_start solvers)) as (b & line & E & -> & Hh). rewrite E.
  rewrite <- (app_nil_r (csv_line nm cells)), words_of_row by assumption. cbn [csv_words]. rewrite app_nil_r. cbn [read_rows negb].
  rewrite (proj2 (name_ok_iff nm) Hb). pose proof (holds_push _ _ _ nm Hh) as Hpush. rewrite (h_solvers _ _ _ Hh) in *.
  destruct (List.length solvers) as [|n] eqn:En; [lia|]. rewrite <- En in *.
  eapply (read_short solvers _ nm cells); [intros ->; discriminate En|exact Hpush|cbn; lia|lia].
Qed.

Lemma load_any t : load to_double t <> None /\ forall b, load to_double t = Some (inl b) ->
  exists rows, contains b (bn_solvers b) rows /\ bn_models b = map (fun r => (fst r, minimize)) rows /\ names_ok rows /\
    (forall s, In s (bn_solvers b) -> is_solver_name s) /\ (forall s, In s (removelast (bn_solvers b)) -> List.length s <> 1) /\
    holds (bn_solvers b) b rows.
Proof.
  unfold load. destruct (getline t) as [[h rest]|] eqn:Eg; [|split; [discriminate|intros b E; discriminate E]].
  destruct (read_solvers (tl (split_commas h))) as [solvers|] eqn:Es; [|split; [discriminate|intros b E; discriminate E]].
  destruct (read_solvers_same _ _ Es) as (Esame & Hname & Hlen).
  assert (H0 : state_ok solvers (mk_bench [] solvers (match solvers with [] => dy_new | _ => dy_init z (List.length solvers) dy_new end)) 0).
  { exists []. split; [apply holds_start|]. split; intros r Hr; contradiction Hr. }
  destruct (read_rows_table solvers (csv_words [] rest) (csv_words_parts rest [] (fun c (Hc : In c []) => match Hc with end)) 0 2%Z _ H0) as (r & Er & Hr).
  rewrite Er. split; [discriminate|]. intros b E. injection E as ->. destruct (Hr b eq_refl) as (rows & Hh & Hf & Hn).
  exists rows. rewrite (h_solvers _ _ _ Hh). split; [apply holds_contains; assumption|]. split; [apply (h_models _ _ _ Hh)|].
  split; [exact Hn|]. split; [|split; [rewrite Esame; exact Hlen|exact Hh]].
  intros s Hs. rewrite Esame in Hs. split.
  - assert (Hin : In s (split_commas h)) by (destruct (split_commas h); [contradiction Hs|right; exact Hs]).
    intros c Hc. split; [apply (split_commas_no_comma h s Hin c Hc)|].
    pose proof (split_commas_chars h s Hin c Hc) as Hch. assert (Eh : h = fst (cut_line t)).
    { destruct t; [discriminate Eg|]. unfold getline in Eg. assert (K : cut_line (a :: t) = (h, rest)) by congruence. rewrite K. reflexivity. }
    rewrite Eh in Hch. apply (cut_line_no_nl _ _ Hch).
  - apply name_ok_iff, Hname, Hs.
Qed.
End Rows.
