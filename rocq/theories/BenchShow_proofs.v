(** Proofs about what the benchmark prints. *)
From Coq Require Import QArith Lqa Lia.
From Verif Require Import Base Problem_model Params_model Bench_model BenchShow_model BenchShow_spec.
Open Scope Q_scope.

Lemma distances_spec l : forall n s, plain_values l ->
  exists t, distances l n (Fin s) = ((n + length (numbers l))%nat, Fin t) /\ t == s + total (map relative (numbers l)).
Proof.
  induction l as [|[a b] l IH]; intros n s H; cbn [distances numbers].
  - exists s. split; [f_equal; cbn; lia|cbn; lra].
  - assert (H' : plain_values l) by (intros p Hp; apply H; right; exact Hp). destruct (H (a, b) (or_introl eq_refl)) as (Ha & Hb & Hz). cbn [fst snd] in *.
    destruct a as [| | |a], b as [| | |b]; cbn [is_valid andb]; try contradiction; try (apply IH; exact H').
    cbn [distance]. destruct (Qeq_bool a 0) eqn:E; [apply Qeq_bool_eq in E; exfalso; exact (Hz a eq_refl E)|].
    cbn [dadd]. destruct (IH (S n) (s + (a - b) / a * 100) H') as (t & E1 & E2). exists t. split; [rewrite E1; f_equal; cbn [length]; lia|].
    rewrite E2. cbn [map total fold_right]. unfold relative at 2. cbn [fst snd]. fold (total (map relative (numbers l))). lra.
Qed.
(** With references 0: the infinities met, in any order. *)
Definition bmet (nan pos neg : bool) (s : dbl) : Prop :=
  match nan || (pos && neg), pos, neg with true, _, _ => s = NaN | _, true, _ => s = PosInf | _, _, true => s = NegInf | _, _, _ => exists q, s = Fin q end%bool.
Definition zero_nan (l : list (Q * Q)) := existsb (fun p => Qeq_bool (fst p) 0 && Qeq_bool (snd p) 0)%bool l.
Definition zero_pos (l : list (Q * Q)) := existsb (fun p => Qeq_bool (fst p) 0 && negb (Qle_bool 0 (snd p)))%bool l.
Definition zero_neg (l : list (Q * Q)) := existsb (fun p => Qeq_bool (fst p) 0 && negb (Qle_bool (snd p) 0))%bool l.
Lemma distances_met l : forall n s nan pos neg, no_nan l -> bmet nan pos neg s ->
  fst (distances l n s) = (n + length (numbers l))%nat /\
  bmet (nan || zero_nan (numbers l)) (pos || zero_pos (numbers l)) (neg || zero_neg (numbers l)) (snd (distances l n s)).
Proof.
  induction l as [|[a b] l IH]; intros n s nan pos neg H Hs; cbn [distances numbers].
  - cbn [zero_nan zero_pos zero_neg existsb length fst snd]. rewrite !Bool.orb_false_r. split; [lia|exact Hs].
  - assert (H' : no_nan l) by (intros p Hp; apply H; right; exact Hp). destruct (H (a, b) (or_introl eq_refl)) as (Ha & Hb). cbn [fst snd] in *.
    destruct a as [| | |a], b as [| | |b]; cbn [is_valid andb]; try contradiction; try (apply IH; assumption).
    cbn [distance length]. unfold zero_nan, zero_pos, zero_neg. cbn [existsb fst snd]. fold (zero_nan (numbers l)) (zero_pos (numbers l)) (zero_neg (numbers l)).
    rewrite !Bool.orb_assoc.
    match goal with |- fst (distances l (S n) ?s1) = _ /\ bmet (?x || _) (?y || _) (?z || _) _ => destruct (IH (S n) s1 x y z H') as [E1 E2] end.
    + destruct (Qeq_bool a 0) eqn:Ea; cbn [andb].
      * destruct (Qeq_bool b 0) eqn:Eb.
        -- unfold bmet. rewrite Bool.orb_true_r. cbn [orb]. destruct s; reflexivity.
        -- destruct (Qle_bool b 0) eqn:El; cbn [negb].
           ++ assert (Ep : Qle_bool 0 b = false).
              { destruct (Qle_bool 0 b) eqn:K; [|reflexivity]. apply Qle_bool_iff in K, El. assert (b == 0) by lra. apply Qeq_bool_iff in H0. congruence. }
              rewrite Ep. unfold bmet in *. cbn [negb]. rewrite Bool.orb_true_r, !Bool.orb_false_r. cbn [andb].
              destruct nan, pos, neg; cbn [orb andb] in *; try (rewrite Hs; reflexivity). destruct Hs as [q ->]. reflexivity.
           ++ assert (Ep : Qle_bool 0 b = true).
              { apply Qle_bool_iff. apply Qlt_le_weak. apply Qnot_le_lt. intros K. apply Qle_bool_iff in K. congruence. }
              rewrite Ep. unfold bmet in *. cbn [negb]. rewrite Bool.orb_true_r, !Bool.orb_false_r. cbn [andb].
              destruct nan, pos, neg; cbn [orb andb] in *; try (rewrite Hs; reflexivity). destruct Hs as [q ->]. reflexivity.
      * rewrite !Bool.orb_false_r. unfold bmet in *. destruct nan, pos, neg; cbn [orb andb] in *; try (rewrite Hs; reflexivity). destruct Hs as [q ->]. eexists. reflexivity.
    + split; [rewrite E1; lia|exact E2].
Qed.
Lemma zero_nan_spec l : zero_nan l = true <-> zero_with (fun b => b == 0) l.
Proof.
  unfold zero_nan. rewrite existsb_exists. split.
  - intros ([a b] & I & E). apply andb_prop in E. destruct E as [E1 E2]. exists a, b. split; [exact I|]. split; apply Qeq_bool_iff; assumption.
  - intros (a & b & I & E1 & E2). exists (a, b). split; [exact I|]. apply andb_true_intro. split; apply Qeq_bool_iff; assumption.
Qed.
Lemma zero_pos_spec l : zero_pos l = true <-> zero_with (fun b => b < 0) l.
Proof.
  unfold zero_pos. rewrite existsb_exists. split.
  - intros ([a b] & I & E). apply andb_prop in E. destruct E as [E1 E2]. exists a, b. split; [exact I|]. split; [apply Qeq_bool_iff; assumption|].
    apply Qnot_le_lt. intros K. apply Qle_bool_iff in K. cbn [fst snd] in E2. rewrite K in E2. discriminate.
  - intros (a & b & I & E1 & E2). exists (a, b). split; [exact I|]. apply andb_true_intro. split; [apply Qeq_bool_iff; assumption|]. cbn [fst snd].
    destruct (Qle_bool 0 b) eqn:K; [|reflexivity]. apply Qle_bool_iff in K. lra.
Qed.
Lemma zero_neg_spec l : zero_neg l = true <-> zero_with (fun b => 0 < b) l.
Proof.
  unfold zero_neg. rewrite existsb_exists. split.
  - intros ([a b] & I & E). apply andb_prop in E. destruct E as [E1 E2]. exists a, b. split; [exact I|]. split; [apply Qeq_bool_iff; assumption|].
    apply Qnot_le_lt. intros K. apply Qle_bool_iff in K. cbn [fst snd] in E2. rewrite K in E2. discriminate.
  - intros (a & b & I & E1 & E2). exists (a, b). split; [exact I|]. apply andb_true_intro. split; [apply Qeq_bool_iff; assumption|]. cbn [fst snd].
    destruct (Qle_bool b 0) eqn:K; [|reflexivity]. apply Qle_bool_iff in K. lra.
Qed.
Lemma zero_references column c : no_nan (combine column (map el_solution c)) ->
  let l := numbers (combine column (map el_solution c)) in
  let undefined := zero_with (fun b => b == 0) l in let above := zero_with (fun b => b < 0) l in let below := zero_with (fun b => 0 < b) l in
  (undefined \/ (above /\ below) -> solver_distance column c = Some NaN) /\
  (~ undefined -> above -> ~ below -> solver_distance column c = Some PosInf) /\
  (~ undefined -> below -> ~ above -> solver_distance column c = Some NegInf).
Proof.
  intros H l undefined above below. unfold undefined, above, below. rewrite <- zero_nan_spec, <- zero_pos_spec, <- zero_neg_spec.
  assert (B0 : bmet false false false (Fin 0)) by (exists 0; reflexivity).
  destruct (distances_met _ 0 (Fin 0) false false false H B0) as [E1 E2]. fold l in E1, E2. cbn [orb] in E2.
  unfold solver_distance. destruct (distances (combine column (map el_solution c)) 0 (Fin 0)) as [number sum]. cbn [fst snd] in E1, E2. cbn [plus] in E1.
  assert (N : zero_nan l = true \/ zero_pos l = true \/ zero_neg l = true -> Nat.ltb 0 number = true).
  { intros K. rewrite E1. destruct l; [|reflexivity]. cbn in K. destruct K as [K|[K|K]]; discriminate. }
  unfold bmet in E2. destruct (zero_nan l), (zero_pos l), (zero_neg l); cbn [orb andb] in E2;
    (split; [|split]); intros; try (rewrite N by tauto; rewrite E2; reflexivity); exfalso; intuition discriminate.
Qed.
Lemma average_of c l n : plain_values l -> (0 < n)%nat ->
  (let '(number, sum) := distances l 0 (Fin 0) in if Nat.ltb 0 number then Some (dover sum n) else None) = c ->
  match c with
  | None => numbers l = []
  | Some d => numbers l <> [] /\ exists p, d = Fin p /\ p == mean (map relative (numbers l)) * inject_Z (Z.of_nat (length (numbers l))) / inject_Z (Z.of_nat n)
  end.
Proof.
  intros H Hn E. destruct (distances_spec l 0 0 H) as (t & E1 & E2). rewrite E1 in E. cbn [plus] in E.
  destruct (numbers l) as [|p0 ps] eqn:En; cbn [length] in *.
  - cbn in E. subst c. reflexivity.
  - replace (Nat.ltb 0 (S (length ps))) with true in E by reflexivity. subst c. split; [discriminate|]. cbn [dover]. eexists. split; [reflexivity|].
    rewrite E2. unfold mean. rewrite map_length. cbn [length]. field. split; intros K; unfold Qeq in K; cbn in K; lia.
Qed.

(** ** Colours *)
Definition fold_low (l : list dbl) (s : dbl) : dbl := fold_left (fun lo v => if is_valid v && dlt v lo then v else lo) l s.
Lemma fold_low_spec l : forall s, (forall v, In v l -> v <> NaN) ->
  exists a, fold_low l (Fin s) = Fin a /\ a <= s /\ (a = s \/ In (Fin a) l) /\ forall b, In (Fin b) l -> a <= b.
Proof.
  induction l as [|v l IH]; intros s H; cbn [fold_low fold_left]; [exists s; split; [reflexivity|split; [lra|split; [auto|intros b []]]]|].
  assert (H' : forall v, In v l -> v <> NaN) by (intros; apply H; right; assumption). specialize (H v (or_introl eq_refl)).
  assert (Hk : (exists b, v = Fin b /\ b < s) \/ ((if is_valid v && dlt v (Fin s) then v else Fin s) = Fin s /\ forall b, v = Fin b -> s <= b)).
  { destruct v as [| | |b]; cbn; try contradiction; try (right; split; [reflexivity|discriminate]).
    destruct (Qle_bool s b) eqn:E; cbn.
    - right. split; [reflexivity|]. intros b' Eb. injection Eb as <-. apply Qle_bool_iff. exact E.
    - left. exists b. split; [reflexivity|]. apply Qnot_le_lt. intros K. apply Qle_bool_iff in K. congruence. }
  destruct Hk as [(b & -> & Hb)|[-> Hb]].
  - replace (if is_valid (Fin b) && dlt (Fin b) (Fin s) then Fin b else Fin s) with (Fin b).
    2:{ cbn. destruct (Qle_bool s b) eqn:E; [apply Qle_bool_iff in E; lra|reflexivity]. }
    destruct (IH b H') as (a & E & A & I & M). exists a. split; [exact E|]. split; [lra|]. split.
    + right. destruct I as [->|I]; [left; reflexivity|right; exact I].
    + intros b' [Eb|Hb']; [injection Eb as <-; exact A|auto].
  - destruct (IH s H') as (a & E & A & I & M). exists a. split; [exact E|]. split; [exact A|]. split.
    + destruct I; [auto|right; right; assumption].
    + intros b' [Eb|Hb']; [|auto]. specialize (Hb b' Eb). lra.
Qed.
Definition fold_high (l : list dbl) (s : dbl) : dbl := fold_left (fun up v => if is_valid v && dlt up v then v else up) l s.
Lemma fold_high_spec l : forall s, (forall v, In v l -> v <> NaN) ->
  exists a, fold_high l (Fin s) = Fin a /\ s <= a /\ (a = s \/ In (Fin a) l) /\ forall b, In (Fin b) l -> b <= a.
Proof.
  induction l as [|v l IH]; intros s H; cbn [fold_high fold_left]; [exists s; split; [reflexivity|split; [lra|split; [auto|intros b []]]]|].
  assert (H' : forall v, In v l -> v <> NaN) by (intros; apply H; right; assumption). specialize (H v (or_introl eq_refl)).
  assert (Hk : (exists b, v = Fin b /\ s < b) \/ ((if is_valid v && dlt (Fin s) v then v else Fin s) = Fin s /\ forall b, v = Fin b -> b <= s)).
  { destruct v as [| | |b]; cbn; try contradiction; try (right; split; [reflexivity|discriminate]).
    destruct (Qle_bool b s) eqn:E; cbn.
    - right. split; [reflexivity|]. intros b' Eb. injection Eb as <-. apply Qle_bool_iff. exact E.
    - left. exists b. split; [reflexivity|]. apply Qnot_le_lt. intros K. apply Qle_bool_iff in K. congruence. }
  destruct Hk as [(b & -> & Hb)|[-> Hb]].
  - replace (if is_valid (Fin b) && dlt (Fin s) (Fin b) then Fin b else Fin s) with (Fin b).
    2:{ cbn. destruct (Qle_bool b s) eqn:E; [apply Qle_bool_iff in E; lra|reflexivity]. }
    destruct (IH b H') as (a & E & A & I & M). exists a. split; [exact E|]. split; [lra|]. split.
    + right. destruct I as [->|I]; [left; reflexivity|right; exact I].
    + intros b' [Eb|Hb']; [injection Eb as <-; exact A|auto].
  - destruct (IH s H') as (a & E & A & I & M). exists a. split; [exact E|]. split; [exact A|]. split.
    + destruct I; [auto|right; right; assumption].
    + intros b' [Eb|Hb']; [|auto]. specialize (Hb b' Eb). lra.
Qed.
Lemma deq_fin a v : deq v (Fin a) = true <-> exists b, v = Fin b /\ b == a.
Proof.
  destruct v as [| | |b]; cbn; split; try discriminate; try (intros (b' & E & _); discriminate).
  - intros H. exists b. split; [reflexivity|]. apply Qeq_bool_eq. exact H.
  - intros (b' & E & H). injection E as ->. apply Qeq_bool_iff. exact H.
Qed.
(** The colour of a value of the line. *)
Lemma line_colours dbl_max cells e : (forall v, In v (cells ++ [el_solution e]) -> v <> NaN) ->
  (forall a, In (Fin a) (cells ++ [el_solution e]) -> - dbl_max <= a <= dbl_max) -> (el_success e = false -> el_solution e = PosInf) ->
  map fst (shown_line dbl_max cells e) = cells ++ [el_solution e] /\
  forall v k, In (v, k) (shown_line dbl_max cells e) ->
    (k = Green <-> best_of minimize (cells ++ [el_solution e]) v) /\
    (k = Blue <-> best_of maximize (cells ++ [el_solution e]) v /\ ~ best_of minimize (cells ++ [el_solution e]) v).
Proof.
  intros Hn Hb He. unfold shown_line. set (all := cells ++ [el_solution e]) in *.
  set (known := cells ++ (if el_success e then [el_solution e] else [])).
  assert (Hk : forall a, In (Fin a) known <-> In (Fin a) all).
  { intros a. unfold known, all. rewrite !in_app_iff. destruct (el_success e); [tauto|]. rewrite (He eq_refl). cbn. split; [tauto|]. intros [?|[?|[]]]; [auto|discriminate]. }
  assert (Hkn : forall v, In v known -> v <> NaN).
  { intros v Hv. apply Hn. unfold known, all in *. rewrite in_app_iff in *. destruct (el_success e); [exact Hv|]. cbn in Hv. tauto. }
  split; [rewrite map_map; cbn [fst]; apply map_id|].
  intros v k Hv. apply in_map_iff in Hv. destruct Hv as (w & Ew & Hw). injection Ew as -> <-.
  destruct (fold_low_spec known dbl_max Hkn) as (lo & El & L1 & L2 & L3). destruct (fold_high_spec known (- dbl_max) Hkn) as (up & Eu & U1 & U2 & U3).
  unfold lowest, highest. fold (fold_low known (Fin dbl_max)). fold (fold_high known (Fin (- dbl_max))). rewrite El, Eu. unfold colour_of.
  assert (Bmin : deq v (Fin lo) = true <-> best_of minimize all v).
  { rewrite deq_fin. split.
    - intros (b & -> & E). exists b. split; [reflexivity|]. intros c Hc. apply Hk in Hc. specialize (L3 c Hc). lra.
    - intros (b & -> & M). exists b. split; [reflexivity|]. pose proof (L3 b (proj2 (Hk b) Hw)) as A. destruct L2 as [->|I].
      + pose proof (Hb b Hw). lra.
      + specialize (M lo (proj1 (Hk lo) I)). lra. }
  assert (Bmax : deq v (Fin up) = true <-> best_of maximize all v).
  { rewrite deq_fin. split.
    - intros (b & -> & E). exists b. split; [reflexivity|]. intros c Hc. apply Hk in Hc. specialize (U3 c Hc). lra.
    - intros (b & -> & M). exists b. split; [reflexivity|]. pose proof (U3 b (proj2 (Hk b) Hw)) as A. destruct U2 as [->|I].
      + pose proof (Hb b Hw). lra.
      + specialize (M up (proj1 (Hk up) I)). lra. }
  rewrite <- Bmin, <- Bmax. destruct (deq v (Fin lo)), (deq v (Fin up)); split; split; intros; try discriminate; try tauto; intuition discriminate.
Qed.

(** The elements of a run: without success there is no value. *)
Lemma run_elements run dir models : forall i ms c, run_models run dir models i = Some (Some (ms, c)) -> forall e, In e c -> el_success e = false -> el_solution e = PosInf.
Proof.
  induction models as [|[nm ty0] models IH]; intros i ms c H e He Hs; cbn [run_models] in H; [injection H as <- <-; destruct He|].
  assert (Hn : forall ty e1, (do r <- run_models run dir models (S i);
                             Some (match r with Some (ms, es) => Some ((nm, ty) :: ms, e1 :: es) | None => None end)) = Some (Some (ms, c)) ->
                            (el_success e1 = false -> el_solution e1 = PosInf) -> el_solution e = PosInf).
  { intros ty e1 Hr He1. destruct (run_models run dir models (S i)) as [[[ms' es]|]|] eqn:E; cbn [bind] in Hr; try discriminate.
    injection Hr as <- <-. destruct He as [->|He]; [auto|]. eapply IH; eauto. }
  destruct (run i (dir ++ model_file nm)) as [|ty|ty values|ty].
  - discriminate.
  - eapply Hn; [exact H|]. reflexivity.
  - destruct (rev values) as [|v l]; [discriminate|]. eapply Hn; [exact H|]. discriminate.
  - eapply Hn; [exact H|]. discriminate.
Qed.
Lemma shown_lines_spec dbl_max b models : forall i c lines, shown_lines dbl_max b models i c = Some lines ->
  map fst lines = map fst models /\
  forall k nm line, nth_error lines k = Some (nm, line) -> exists cells e, line_values (bn_array b) (i + k) (seq 0 (length (bn_solvers b))) = Some cells /\
    nth_error c k = Some e /\ line = shown_line dbl_max cells e.
Proof.
  induction models as [|[nm ty] models IH]; intros i c lines H; cbn [shown_lines] in H.
  - injection H as <-. split; [reflexivity|]. intros [|k] ? ? E; discriminate.
  - destruct c as [|e c]; [discriminate|]. destruct (line_values _ _ _) as [cells|] eqn:El; cbn [bind] in H; [|discriminate].
    destruct (shown_lines dbl_max b models (S i) c) as [rest|] eqn:Er; cbn [bind] in H; [|discriminate]. injection H as <-.
    destruct (IH _ _ _ Er) as [I1 I2]. split; [cbn; f_equal; exact I1|]. intros [|k] nm' line E; cbn in E.
    + injection E as <- <-. exists cells, e. rewrite Nat.add_0_r. auto.
    + destruct (I2 k nm' line E) as (cs & e' & A & B & C). exists cs, e'. rewrite Nat.add_succ_r. auto.
Qed.
Lemma line_values_spec a i cols : forall vs, line_values a i cols = Some vs ->
  length vs = length cols /\ forall k j, nth_error cols k = Some j -> nth_error vs k = Dynarray_model.dy_get a i j.
Proof.
  induction cols as [|j cols IH]; intros vs H; cbn [line_values] in H; [injection H as <-; split; [reflexivity|intros [|k] j' E; discriminate]|].
  destruct (Dynarray_model.dy_get a i j) as [v|] eqn:E; cbn [bind] in H; [|discriminate].
  destruct (line_values a i cols) as [r|]; cbn [bind] in H; [|discriminate]. injection H as <-. destruct (IH r eq_refl) as [L N].
  split; [cbn; f_equal; exact L|]. intros [|k] j' Ej; cbn in *; [injection Ej as <-; congruence|]. auto.
Qed.
