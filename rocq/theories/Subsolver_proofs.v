From Coq Require Import Permutation Sorted.
From Verif Require Import Base Problem_model Merged_spec Rows_model Solver_spec Subsolver_model Subsolver_spec.
Open Scope Z_scope.

(** ** The walk *)
(** The number whose binary digits are [w], the first the most significant. *)
Fixpoint num (w : list bool) : Z :=
  match w with [] => 0 | b :: w' => (if b then 2 ^ Z.of_nat (length w') else 0) + num w' end.

Lemma num_bounds w : 0 <= num w < 2 ^ Z.of_nat (length w).
Proof.
  induction w as [|b w IH]; [cbn; lia|].
  cbn [num length]. rewrite Nat2Z.inj_succ, Z.pow_succ_r by lia. destruct b; lia.
Qed.

Lemma num_inj w v : length w = length v -> num w = num v -> w = v.
Proof.
  revert v; induction w as [|b w IH]; intros [|c v] HL HE; try discriminate; [reflexivity|].
  cbn [num length] in *. injection HL as HL. rewrite HL in HE.
  pose proof (num_bounds w) as Hw. pose proof (num_bounds v) as Hv. rewrite HL in Hw.
  destruct b, c; try lia; (f_equal; apply IH; [assumption|lia]).
Qed.

Lemma num_upd w i b w' : nth_error w i = Some b -> list_upd w i (negb b) = Some w' ->
  num w' = num w + (if b then -1 else 1) * 2 ^ Z.of_nat (length w - 1 - i).
Proof.
  revert i w'; induction w as [|c w IH]; intros i w' Hn Hu; [destruct i; discriminate|].
  destruct i as [|i]; cbn [nth_error list_upd] in *.
  - inversion Hn; subst. inversion Hu; subst. cbn [num length].
    replace (S (length w) - 1 - 0)%nat with (length w) by lia. destruct b; cbn [negb]; lia.
  - destruct (list_upd w i (negb b)) as [t|] eqn:E; cbn in Hu; [|discriminate]. inversion Hu; subst.
    cbn [num length]. rewrite (IH _ _ Hn E), (list_upd_length _ _ _ _ E).
    replace (S (length w) - 1 - S i)%nat with (length w - 1 - i)%nat by lia. lia.
Qed.

Lemma walk_sum_value l w : walk_sum l w = row_value l w.
Proof.
  revert w; induction l as [|e l IH]; intros [|b w]; cbn [walk_sum row_value]; try reflexivity.
  rewrite IH. destruct b; lia.
Qed.

Definition low_zero (w : list bool) (i : nat) : Prop := forall j, (i < j)%nat -> (j < length w)%nat -> nth_error w j = Some false.
Definition flat_of (l : list felem) (sols : list (list bool)) : list Z := concat (map (walk_row l) sols).

Lemma walk_ok l lo hi : forall fuel w i flat nb,
  length w = length l -> (i < length w)%nat -> low_zero w i ->
  num w + 2 ^ Z.of_nat (length w - 1 - i) <= 2 ^ Z.of_nat (length w) ->
  (2 ^ Z.of_nat (length w) - (num w + 2 ^ Z.of_nat (length w - 1 - i))) * Z.of_nat (length w) + Z.of_nat i + 1 <= Z.of_nat fuel ->
  exists sols, walk fuel l lo hi w i flat nb
     = Some (repeat false (length w), flat ++ flat_of l sols, (nb + length sols)%nat)
   /\ (forall u, In u sols -> choice_ok l lo hi u)
   /\ (forall u, choice_ok l lo hi u ->
        u = w \/ ((0 < i)%nat /\ list_upd w i false = Some u) \/ num w + 2 ^ Z.of_nat (length w - 1 - i) <= num u -> In u sols).
Proof.
  induction fuel as [|fuel IH]; intros w i flat nb HL Hi Hlow HV HF.
  { exfalso. nia. }
  cbn [walk]. rewrite walk_sum_value.
  destruct (nth_error w i) as [b|] eqn:Hb; [|apply nth_error_None in Hb; lia]. cbn [bind].
  destruct (list_upd_some w i (negb b) Hi) as [w' Hw']. rewrite Hw'. cbn [bind].
  pose proof (list_upd_length _ _ _ _ Hw') as HLw'.
  pose proof (num_upd w i b w' Hb Hw') as Hnum.
  set (ok := (lo <=? row_value l w) && (row_value l w <=? hi)).
  set (s0 := if ok then [w] else []).
  assert (Ef : (if ok then flat ++ walk_row l w else flat) = flat ++ flat_of l s0).
  { unfold s0, flat_of. destruct ok; cbn; rewrite ?app_nil_r; reflexivity. }
  assert (En : (if ok then S nb else nb) = (nb + length s0)%nat).
  { unfold s0. destruct ok; cbn; lia. }
  rewrite Ef, En. clear Ef En.
  assert (H0 : forall u, In u s0 -> choice_ok l lo hi u).
  { unfold s0, ok. intros u Hu. destruct ((lo <=? row_value l w) && (row_value l w <=? hi)) eqn:E; [|contradiction].
    destruct Hu as [<-|[]]. apply andb_true_iff in E. destruct E. split; [assumption|]. lia. }
  assert (H1 : choice_ok l lo hi w -> In w s0).
  { intros [_ Hr]. unfold s0, ok. destruct ((lo <=? row_value l w) && (row_value l w <=? hi)) eqn:E; [left; reflexivity|].
    apply andb_false_iff in E. lia. }
  assert (Hcat : forall s, flat ++ flat_of l s0 ++ flat_of l s = flat ++ flat_of l (s0 ++ s)).
  { intros s. unfold flat_of. rewrite map_app, concat_app. reflexivity. }
  destruct b; cbn [negb] in *.
  - (* 1 becomes 0 *)
    destruct (Nat.eqb_spec i 0) as [->|Hi0].
    + exists s0. split; [|split; [assumption|]].
      * f_equal. f_equal. f_equal. apply nth_error_ext. intros j.
        rewrite (list_upd_nth _ _ _ _ j Hw'), nth_error_repeat.
        destruct (Nat.eqb_spec j 0) as [->|Hj]; [destruct (Nat.ltb_spec 0 (length w)); [reflexivity|lia]|].
        destruct (Nat.ltb_spec j (length w)) as [Hj2|Hj2]; [apply Hlow; lia|apply nth_error_None; lia].
      * intros u Hu [->|[[Hlt _]|Hge]]; [auto|lia|]. exfalso.
        pose proof (num_bounds u) as Hb1. pose proof (num_bounds w') as Hb2. destruct Hu as [Hlu _].
        rewrite Hlu, <- HL in Hb1. 
        replace (length w - 1 - 0)%nat with (length w - 1)%nat in * by lia.
        assert (2 ^ Z.of_nat (length w) = 2 * 2 ^ Z.of_nat (length w - 1)).
        { replace (Z.of_nat (length w)) with (Z.succ (Z.of_nat (length w - 1))) at 1 by lia. apply Z.pow_succ_r. lia. }
        lia.
    + assert (Hpow : 2 ^ Z.of_nat (length w' - 1 - (i - 1)) = 2 * 2 ^ Z.of_nat (length w - 1 - i)).
      { replace (Z.of_nat (length w' - 1 - (i - 1))) with (Z.succ (Z.of_nat (length w - 1 - i))) by lia. apply Z.pow_succ_r. lia. }
      destruct (IH w' (i - 1)%nat (flat ++ flat_of l s0) (nb + length s0)%nat) as [s [Hs [Hsa Hsb]]].
      * lia.
      * lia.
      * intros j Hj1 Hj2. rewrite (list_upd_nth _ _ _ _ j Hw').
        destruct (Nat.eqb_spec j i); [reflexivity|]. apply Hlow; lia.
      * rewrite Hpow, HLw'. lia.
      * rewrite Hpow, HLw'. replace (Z.of_nat (i - 1)) with (Z.of_nat i - 1) by lia.
        replace (num w' + 2 * 2 ^ Z.of_nat (length w - 1 - i)) with (num w + 2 ^ Z.of_nat (length w - 1 - i)) by lia. lia.
      * exists (s0 ++ s). split; [|split].
        -- rewrite Hs, HLw', app_length, <- app_assoc, Hcat. f_equal. f_equal. lia.
        -- intros u Hu. apply in_app_or in Hu. destruct Hu; auto.
        -- intros u Hu Hc. apply in_or_app. destruct Hc as [->|[[_ Hc]|Hge]]; [left; auto| |]; right;
             (apply Hsb; [assumption|]).
           ++ left. congruence.
           ++ right. right. rewrite Hpow. lia.
  - (* 0 becomes 1 *)
    pose proof (num_bounds w') as Hb2. rewrite HLw' in Hb2.
    assert (Hpow : 2 ^ Z.of_nat (length w' - 1 - (length w - 1)) = 1).
    { replace (length w' - 1 - (length w - 1))%nat with 0%nat by lia. reflexivity. }
    destruct (IH w' (length w - 1)%nat (flat ++ flat_of l s0) (nb + length s0)%nat) as [s [Hs [Hsa Hsb]]].
    + lia.
    + lia.
    + intros j Hj1 Hj2. lia.
    + rewrite Hpow, HLw'. lia.
    + rewrite Hpow, HLw'. replace (Z.of_nat (length w - 1)) with (Z.of_nat (length w) - 1) by lia. nia.
    + exists (s0 ++ s). split; [|split].
      * rewrite Hs, HLw', app_length, <- app_assoc, Hcat. f_equal. f_equal. lia.
      * intros u Hu. apply in_app_or in Hu. destruct Hu; auto.
      * intros u Hu Hc. apply in_or_app. 
        assert (Hc' : u = w \/ num w + 2 ^ Z.of_nat (length w - 1 - i) <= num u).
        { destruct Hc as [->|[[_ Hc]|Hge]]; [left; reflexivity| |right; assumption].
          left. apply nth_error_ext. intros j. rewrite (list_upd_nth _ _ _ _ j Hc).
          destruct (Nat.eqb_spec j i) as [->|]; [symmetry; assumption|reflexivity]. }
        destruct Hc' as [->|Hge]; [left; auto|right].
        apply Hsb; [assumption|]. rewrite Hpow.
        destruct (Z.eq_dec (num u) (num w')) as [E|E].
        -- left. apply num_inj; [|assumption]. destruct Hu. lia.
        -- right. right. lia.
Qed.

(** ** build_constraints *)
Lemma num_repeat_false n : num (repeat false n) = 0.
Proof. induction n; cbn [repeat num]; lia. Qed.

Lemma num_zero w : num w = 0 -> w = repeat false (length w).
Proof. intros H. apply num_inj; [rewrite repeat_length; reflexivity|]. rewrite num_repeat_false. assumption. Qed.

Lemma resize_zero m n : resize (repeat false m) n = repeat false n.
Proof.
  unfold resize. apply nth_error_ext. intros i. rewrite repeat_length, nth_error_repeat.
  destruct (Nat.ltb_spec i (length (firstn n (repeat false m)))) as [H|H].
  - rewrite nth_error_app1 by assumption.
    rewrite firstn_length, repeat_length in H.
    assert (E : nth_error (firstn n (repeat false m)) i = nth_error (repeat false m) i).
    { clear -H. revert m i H. induction n as [|n IH]; intros [|m] [|i] H; cbn in *; try lia; try reflexivity. apply IH. lia. }
    rewrite E, nth_error_repeat.
    destruct (Nat.ltb_spec i m), (Nat.ltb_spec i n); try reflexivity; lia.
  - rewrite nth_error_app2 by assumption. rewrite firstn_length, repeat_length in *. rewrite nth_error_repeat.
    destruct (Nat.ltb_spec (i - Init.Nat.min n m) (n - m)), (Nat.ltb_spec i n); try reflexivity; lia.
Qed.

Lemma walk_start l lo hi flat w0 : (0 < length l)%nat ->
  list_upd (repeat false (length l)) (length l - 1) true = Some w0 ->
  exists sols, walk (length l * 2 ^ length l + length l) l lo hi w0 (length l - 1) flat 0
     = Some (repeat false (length l), flat ++ flat_of l sols, length sols)
   /\ (forall u, In u sols -> choice_ok l lo hi u)
   /\ (forall u, (2 <= length l)%nat -> choice_ok l lo hi u -> In u sols).
Proof.
  intros Hn Hw0. pose proof (list_upd_length _ _ _ _ Hw0) as HL. rewrite repeat_length in HL.
  assert (Hnum : num w0 = 1).
  { assert (E : nth_error (repeat false (length l)) (length l - 1) = Some false).
    { rewrite nth_error_repeat. destruct (Nat.ltb_spec (length l - 1) (length l)); [reflexivity|lia]. }
    rewrite (num_upd _ _ _ _ E Hw0), num_repeat_false, repeat_length.
    replace (length l - 1 - (length l - 1))%nat with 0%nat by lia. reflexivity. }
  assert (Hpow : 2 ^ Z.of_nat (length w0 - 1 - (length l - 1)) = 1).
  { replace (length w0 - 1 - (length l - 1))%nat with 0%nat by lia. reflexivity. }
  assert (Hp2 : 2 <= 2 ^ Z.of_nat (length w0)).
  { change 2 with (2 ^ 1) at 1. apply Z.pow_le_mono_r; lia. }
  destruct (walk_ok l lo hi (length l * 2 ^ length l + length l) w0 (length l - 1) flat 0) as [s [Hs [Ha Hb]]].
  - assumption.
  - lia.
  - intros j Hj1 Hj2. lia.
  - rewrite Hpow. lia.
  - rewrite Hpow, Hnum, HL. rewrite Nat2Z.inj_add, Nat2Z.inj_mul, Nat2Z.inj_pow. change (Z.of_nat 2) with 2. nia.
  - exists s. rewrite HL in Hs. split; [exact Hs|]. split; [assumption|].
    intros u Hn2 Hu. apply Hb; [assumption|].
    destruct (Z.eq_dec (num u) 0) as [E0|E0].
    + right. left. split; [lia|]. apply num_zero in E0. destruct Hu as [Hlu _].
      destruct (list_upd_some w0 (length l - 1) false) as [w' Hw']; [lia|].
      rewrite Hw'. f_equal. rewrite E0, Hlu.
      apply nth_error_ext. intros j. rewrite (list_upd_nth _ _ _ _ j Hw'), (list_upd_nth _ _ _ _ j Hw0), nth_error_repeat.
      destruct (Nat.eqb_spec j (length l - 1)) as [->|]; [|reflexivity].
      destruct (Nat.ltb_spec (length l - 1) (length l)); [reflexivity|lia].
    + destruct (Z.eq_dec (num u) 1) as [E1|E1].
      * left. apply num_inj; [destruct Hu; lia|lia].
      * right. right. rewrite Hpow. pose proof (num_bounds u). lia.
Qed.

(** What holds of a solver object after registering the rows [done]. *)
Definition row_tabled (ex : exhaustive) (r : xrow) : Prop :=
  exists sols pre post,
    find (fun c => Nat.eqb (ec_k c) (x_k r)) (ex_csts ex) = Some (mk_ecst (x_k r) (length pre) (length sols) (x_lo r) (x_hi r)) /\
    ex_flat ex = pre ++ flat_of (x_elements r) sols ++ post /\ sols <> [] /\
    (forall u, In u sols -> choice_ok (x_elements r) (x_lo r) (x_hi r) u) /\
    (forall u, (2 <= length (x_elements r))%nat -> choice_ok (x_elements r) (x_lo r) (x_hi r) u -> In u sols).
Definition ex_inv (ex : exhaustive) (done : list xrow) : Prop :=
  (exists m, ex_walkers ex = repeat false m) /\ (forall r, In r done -> row_tabled ex r) /\
  (forall c, In c (ex_csts ex) -> In (ec_k c) (map x_k done)).

Lemma ex_build_ok ex done r : ex_inv ex done -> ~ In (x_k r) (map x_k done) -> (0 < length (x_elements r))%nat ->
  exists sols,
    (forall u, In u sols -> choice_ok (x_elements r) (x_lo r) (x_hi r) u) /\
    (forall u, (2 <= length (x_elements r))%nat -> choice_ok (x_elements r) (x_lo r) (x_hi r) u -> In u sols) /\
    match ex_build ex (x_k r) (x_elements r) (x_lo r) (x_hi r) with
    | None => sols = []
    | Some ex' => sols <> [] /\ ex_inv ex' (done ++ [r])
    end.
Proof.
  intros [[m Hm] [Hr Hc]] Hnew Hn. unfold ex_build.
  destruct (Nat.ltb_spec 0 (length (x_elements r))); [|lia].
  rewrite Hm, resize_zero.
  destruct (list_upd_some (repeat false (length (x_elements r))) (length (x_elements r) - 1) true) as [w0 Hw0]; [rewrite repeat_length; lia|].
  rewrite Hw0. cbn [bind].
  destruct (walk_start _ (x_lo r) (x_hi r) (ex_flat ex) w0 Hn Hw0) as [sols [Hs [Ha Hb]]].
  rewrite Hs. cbn [bind]. exists sols. split; [assumption|]. split; [assumption|].
  destruct (Nat.ltb_spec 0 (length sols)) as [Hp|Hp]; [|destruct sols; [reflexivity|cbn in Hp; lia]].
  split; [destruct sols; [cbn in Hp; lia|discriminate]|].
  assert (Hex : existsb (fun c => Nat.eqb (ec_k c) (x_k r)) (ex_csts ex) = false).
  { destruct (existsb _ _) eqn:E; [|reflexivity]. apply existsb_exists in E. destruct E as [c [Hin Ec]].
    apply Nat.eqb_eq in Ec. exfalso. apply Hnew. rewrite <- Ec. apply Hc. assumption. }
  rewrite Hex.
  assert (Hfind : forall (l : list ecst) p c, find p (l ++ [c]) = match find p l with Some a => Some a | None => if p c then Some c else None end).
  { intros l p c. induction l as [|a l IH]; cbn; [reflexivity|]. destruct (p a); [reflexivity|]. exact IH. }
  split; [|split].
  - cbn. eauto.
  - intros q Hq. apply in_app_or in Hq. destruct Hq as [Hq|[<-|[]]].
    + destruct (Hr q Hq) as [s [pre [post [Hf [Hfl Hrest]]]]].
      exists s, pre, (post ++ flat_of (x_elements r) sols). cbn [ex_csts ex_flat].
      rewrite Hfind, Hf. split; [reflexivity|]. split; [|assumption].
      rewrite Hfl, <- !app_assoc. reflexivity.
    + exists sols, (ex_flat ex), []. cbn [ex_csts ex_flat]. rewrite Hfind.
      replace (find (fun c => Nat.eqb (ec_k c) (x_k r)) (ex_csts ex)) with (@None ecst).
      * cbn [ec_k]. rewrite Nat.eqb_refl. split; [reflexivity|]. rewrite app_nil_r. split; [reflexivity|].
        split; [destruct sols; [cbn in Hp; lia|discriminate]|]. split; assumption.
      * destruct (find _ _) eqn:E; [|reflexivity]. apply find_some in E. destruct E as [Hin Ec].
        exfalso. assert (existsb (fun c => Nat.eqb (ec_k c) (x_k r)) (ex_csts ex) = true) by (apply existsb_exists; eauto). congruence.
  - cbn [ex_csts]. intros c Hin. rewrite map_app. apply in_or_app. apply in_app_or in Hin.
    destruct Hin as [Hin|[<-|[]]]; [left; auto|right; left; reflexivity].
Qed.

Lemma built_ok : forall rows ex done, ex_inv ex done -> NoDup (map x_k (done ++ rows)) ->
  (forall r, In r rows -> (2 <= length (x_elements r))%nat /\ exists u, choice_ok (x_elements r) (x_lo r) (x_hi r) u) ->
  exists ex', built ex rows = Some ex' /\ ex_inv ex' (done ++ rows).
Proof.
  induction rows as [|r rows IH]; intros ex done Hinv Hnd Hall; cbn [built].
  - exists ex. rewrite app_nil_r. auto.
  - destruct (Hall r (or_introl eq_refl)) as [Hn [u Hu]].
    assert (Hnew : ~ In (x_k r) (map x_k done)).
    { rewrite map_app in Hnd. cbn [map] in Hnd. apply NoDup_remove_2 in Hnd. intros H. apply Hnd. apply in_or_app. auto. }
    destruct (ex_build_ok ex done r Hinv Hnew ltac:(lia)) as [sols [Ha [Hb Hm]]].
    destruct (ex_build ex _ _ _ _) as [ex1|]; [|specialize (Hb u Hn Hu); subst; contradiction].
    cbn [bind]. destruct Hm as [_ Hinv1].
    destruct (IH ex1 (done ++ [r]) Hinv1) as [ex' [He Hi]].
    + rewrite <- app_assoc. exact Hnd.
    + intros q Hq. apply Hall. right. assumption.
    + exists ex'. split; [exact He|]. rewrite <- app_assoc in Hi. exact Hi.
Qed.

Lemma ex_new_inv : ex_inv ex_new [].
Proof. split; [exists 0%nat; reflexivity|]. split; intros ? []. Qed.

(** ** Reading the table *)
Lemma walk_row_length l u : length u = length l -> length (walk_row l u) = length l.
Proof. revert u; induction l as [|e l IH]; intros [|b u] H; cbn in *; try lia. rewrite IH; lia. Qed.

Lemma walk_row_bits l u : length u = length l -> (forall e, In e l -> f_factor e <> 0) ->
  map (fun f => negb (f =? 0)) (walk_row l u) = u.
Proof.
  revert u; induction l as [|e l IH]; intros [|b u] H Hnz; cbn [walk_row map length] in *; try lia; [reflexivity|].
  rewrite IH; [|lia|intros; apply Hnz; right; assumption]. f_equal.
  pose proof (Hnz e (or_introl eq_refl)). destruct b; [|reflexivity].
  destruct (Z.eqb_spec (f_factor e) 0); [contradiction|reflexivity].
Qed.

Lemma flat_of_length l s : (forall u, In u s -> length u = length l) -> length (flat_of l s) = (length s * length l)%nat.
Proof.
  induction s as [|u s IH]; intros H; [reflexivity|].
  unfold flat_of in *. cbn [map concat length]. rewrite app_length, walk_row_length by (apply H; left; reflexivity).
  rewrite IH by (intros; apply H; right; assumption). lia.
Qed.

Lemma flat_of_split l s i u : (forall v, In v s -> length v = length l) -> nth_error s i = Some u ->
  exists a b, flat_of l s = a ++ walk_row l u ++ b /\ length a = (i * length l)%nat.
Proof.
  intros H Hn. apply nth_error_split in Hn. destruct Hn as [s1 [s2 [-> Hi]]].
  exists (flat_of l s1), (flat_of l s2). split.
  - unfold flat_of. rewrite map_app, concat_app. cbn. reflexivity.
  - rewrite flat_of_length, Hi; [reflexivity|]. intros v Hv. apply H. apply in_or_app. auto.
Qed.

Lemma skipn_app_exact {A} (a b : list A) n : length a = n -> skipn n (a ++ b) = b.
Proof. intros <-. rewrite skipn_app, skipn_all, Nat.sub_diag. reflexivity. Qed.
Lemma firstn_app_exact {A} (a b : list A) n : length a = n -> firstn n (a ++ b) = a.
Proof. intros <-. rewrite firstn_app, firstn_all, Nat.sub_diag. cbn. apply app_nil_r. Qed.

Lemma map_seq_nth {A} (f : nat -> A) (s : list A) :
  (forall i a, nth_error s i = Some a -> f i = a) -> map f (seq 0 (length s)) = s.
Proof.
  intros H. apply nth_error_ext. intros i.
  destruct (nth_error s i) as [a|] eqn:E.
  - assert (i < length s)%nat by (apply nth_error_Some; congruence).
    rewrite <- (H i a E). apply map_nth_error. rewrite nth_error_seq.
    destruct (Nat.ltb_spec i (length s)); [f_equal; lia|lia].
  - apply nth_error_None. rewrite map_length, seq_length. apply nth_error_None. assumption.
Qed.

Lemma table_of_ok ex r : row_tabled ex r -> (forall e, In e (x_elements r) -> f_factor e <> 0) ->
  exists t, table_of ex r = Some t /\ t <> [] /\
    (forall u, In u t -> choice_ok (x_elements r) (x_lo r) (x_hi r) u) /\
    (forall u, (2 <= length (x_elements r))%nat -> choice_ok (x_elements r) (x_lo r) (x_hi r) u -> In u t).
Proof.
  intros [s [pre [post [Hf [Hfl [Hne [Ha Hb]]]]]]] Hnz. exists s. unfold table_of. rewrite Hf. cbn [bind ec_start ec_solutions].
  split; [|auto]. f_equal. apply map_seq_nth. intros i u Hu.
  destruct (flat_of_split (x_elements r) s i u) as [a [b [Hab Hla]]]; [intros v Hv; apply Ha; assumption|assumption|].
  pose proof (Ha u (nth_error_In _ _ Hu)) as [Hlu _].
  rewrite Hfl, Hab, <- !app_assoc, (app_assoc pre a).
  rewrite skipn_app_exact by (rewrite app_length; lia).
  rewrite firstn_app_exact by (apply walk_row_length; assumption).
  apply walk_row_bits; assumption.
Qed.

(** ** solve *)
Lemma chosen_combine {A} (R : list A) u : chosen R u = map fst (filter snd (combine R u)).
Proof. revert u; induction R as [|r R IH]; intros [|b u]; cbn; try reflexivity. rewrite IH. destruct b; reflexivity. Qed.
Lemma not_chosen_combine {A} (R : list A) u : not_chosen R u = map fst (filter (fun p => negb (snd p)) (combine R u)).
Proof. unfold not_chosen. revert u; induction R as [|r R IH]; intros [|b u]; cbn; try reflexivity. rewrite IH. destruct b; reflexivity. Qed.
Lemma Permutation_filter {A} (p : A -> bool) l l' : Permutation l l' -> Permutation (filter p l) (filter p l').
Proof.
  induction 1; cbn; [constructor| | |etransitivity; eassumption].
  - destruct (p x); [constructor|]; assumption.
  - destruct (p x), (p y); try reflexivity. constructor.
Qed.

Section Solve_proofs.
Context {F : Type} (fo : fops F)
        (std_sort : forall A : Type, (A -> A -> bool) -> list A -> list A).
Hypothesis (Hperm : permutes std_sort) (Hsort : sorts std_sort) (Hw : weak_order (fl_lt fo)).

Lemma better_weak mode : weak_order (better fo mode).
Proof.
  destruct Hw as [H1 [H2 H3]]. destruct mode; (split; [|split]); cbn; intros; eauto.
Qed.

Lemma result_lt_weak mode : weak_order (result_lt fo mode).
Proof.
  assert (Hr : weak_order (rc_lt fo mode)).
  { destruct Hw as [H1 [H2 H3]]. destruct mode; (split; [|split]); cbn; intros; eauto. }
  destruct Hr as [H1 [H2 H3]]. unfold result_lt. split; [|split].
  - intros [a [|]]; cbn; apply H1.
  - intros [a [|]] [b [|]] [c [|]]; cbn; intros; try discriminate; try reflexivity; eauto.
  - intros [a [|]] [b [|]] [c [|]]; cbn; intros; try discriminate; try reflexivity; eauto.
Qed.

Lemma find_zero_split : forall (l : list (rc F * bool)) i,
  StronglySorted (fun a b => snd a = false -> snd b = false) l ->
  exists t f, l = t ++ f /\ (forall a, In a t -> snd a = true) /\ (forall a, In a f -> snd a = false) /\
    find_zero l i = match f with [] => None | _ => Some (i + Z.of_nat (length t)) end.
Proof.
  induction l as [|[a b] l IH]; intros i Hs.
  - exists [], []. cbn. repeat split; intros ? [].
  - inversion Hs as [|? ? Hs' Hf]; subst. cbn [find_zero]. destruct b.
    + destruct (IH (i + 1) Hs') as [t [f [-> [Ht [Hff E]]]]].
      exists ((a, true) :: t), f. split; [reflexivity|]. split; [|split; [assumption|]].
      * intros c [<-|Hc]; [reflexivity|auto].
      * rewrite E. destruct f; [reflexivity|]. cbn [length]. f_equal. lia.
    + exists [], ((a, false) :: l). split; [reflexivity|]. split; [intros ? []|]. split.
      * intros c [<-|Hc]; [reflexivity|]. rewrite Forall_forall in Hf. apply Hf; [assumption|reflexivity].
      * cbn. f_equal. lia.
Qed.

Lemma filter_all {A} (p : A -> bool) l : (forall a, In a l -> p a = true) -> filter p l = l.
Proof. induction l as [|a l IH]; intros H; cbn; [reflexivity|]. rewrite (H a (or_introl eq_refl)), IH; [reflexivity|]. intros; apply H; right; assumption. Qed.
Lemma filter_none {A} (p : A -> bool) l : (forall a, In a l -> p a = false) -> filter p l = [].
Proof. induction l as [|a l IH]; intros H; cbn; [reflexivity|]. rewrite (H a (or_introl eq_refl)). apply IH. intros; apply H; right; assumption. Qed.

Lemma finish_ok mode (R : list (rc F)) u : R <> [] -> length u = length R ->
  exists R' sel, finish fo std_sort mode (combine R u) = Some (R', sel) /\ Permutation R' R /\
    -1 <= sel <= Z.of_nat (length R) /\
    Permutation (firstn (Z.to_nat (sel + 1)) R') (chosen R u) /\
    Permutation (skipn (Z.to_nat (sel + 1)) R') (not_chosen R u) /\
    (sel = Z.of_nat (length R) <-> not_chosen R u = []) /\ sel <> Z.of_nat (length R) - 1.
Proof.
  intros Hne Hlen. unfold finish.
  set (items := combine R u). set (s := std_sort _ (result_lt fo mode) items).
  assert (Hp : Permutation s items) by apply Hperm.
  assert (Hs : StronglySorted (fun a b => snd a = false -> snd b = false) s).
  { destruct (result_lt_weak mode) as [H1 [H2 H3]].
    pose proof (Hsort _ (result_lt fo mode) items H1 H2 H3) as Hss. fold s in Hss.
    clear -Hss. induction Hss as [|a l Hl IH Hf]; constructor; [assumption|].
    eapply Forall_impl; [|exact Hf]. intros [b bb] H Ha. cbn in *. unfold result_lt in H. cbn in H.
    rewrite Ha in H. destruct bb; [cbn in H; discriminate|reflexivity]. }
  destruct (find_zero_split s 0 Hs) as [t [f [E [Ht [Hf EZ]]]]].
  assert (Hfst : map fst items = R).
  { unfold items. clear -Hlen. revert u Hlen. induction R as [|r R IH]; intros [|b u] H; cbn in *; try lia; [reflexivity|]. rewrite IH by lia. reflexivity. }
  assert (Hll : length s = length R).
  { rewrite (Permutation_length Hp). unfold items. rewrite combine_length. lia. }
  assert (HPR : Permutation (map fst s) R).
  { rewrite <- Hfst. apply Permutation_map. assumption. }
  assert (HT : Permutation (map fst t) (chosen R u)).
  { rewrite chosen_combine. apply Permutation_map. fold items.
    rewrite <- (Permutation_filter snd _ _ Hp), E, filter_app, (filter_all snd t Ht), (filter_none snd f Hf), app_nil_r. reflexivity. }
  assert (HF : Permutation (map fst f) (not_chosen R u)).
  { rewrite not_chosen_combine. apply Permutation_map. fold items.
    rewrite <- (Permutation_filter _ _ _ Hp), E, filter_app.
    rewrite (filter_none _ t), (filter_all _ f); [reflexivity| |]; intros a Ha.
    - rewrite (Hf a Ha). reflexivity.
    - rewrite (Ht a Ha). reflexivity. }
  rewrite EZ. destruct f as [|f0 f].
  - destruct s as [|s0 s'] eqn:Es; [destruct R; [congruence|cbn in Hll; lia]|].
    cbn [nth_error bind]. rewrite app_nil_r in E. 
    assert (Hs0 : snd s0 = true) by (apply Ht; rewrite <- E; left; reflexivity).
    rewrite Hs0. exists (map fst (s0 :: s')), (Z.of_nat (length (s0 :: s'))). split; [reflexivity|].
    split; [assumption|]. rewrite Hll. split; [lia|].
    assert (Hm : length (map fst (s0 :: s')) = length R) by (rewrite map_length; assumption).
    rewrite firstn_all2 by lia. rewrite skipn_all2 by lia.
    split; [rewrite E; assumption|]. split; [assumption|]. split; [|lia].
    split; [intros _|reflexivity]. apply Permutation_nil. assumption.
  - exists (map fst s), (0 + Z.of_nat (length t) - 1). split; [reflexivity|]. split; [assumption|].
    assert (length R = length t + S (length f))%nat by (rewrite <- Hll, E, app_length; reflexivity).
    split; [lia|]. replace (Z.to_nat (0 + Z.of_nat (length t) - 1 + 1)) with (length t) by lia.
    rewrite E, map_app.
    rewrite firstn_app_exact by (apply map_length). rewrite skipn_app_exact by (apply map_length).
    split; [assumption|]. split; [assumption|]. split; [|lia].
    split; [lia|]. intros H0. rewrite H0 in HF. apply Permutation_sym, Permutation_nil in HF. discriminate.
Qed.

Lemma table_cost_ok l : (forall e, In e l -> f_factor e <> 0) -> forall (R : list (rc F)) u a b z, length R = length l -> length u = length l ->
  table_cost fo (a ++ walk_row l u ++ b) (length a) R z = Some (sum_costs fo (chosen R u) z).
Proof.
  induction l as [|e l IH]; intros Hnz [|r R] [|c u] a b z HR Hu; cbn [length] in *; try lia; [reflexivity|].
  cbn [table_cost walk_row chosen]. rewrite nth_error_app2, Nat.sub_diag by lia. cbn [app nth_error bind].
  assert (E : a ++ (if c then f_factor e else 0) :: walk_row l u ++ b = (a ++ [if c then f_factor e else 0]) ++ walk_row l u ++ b)
    by (rewrite <- app_assoc; reflexivity).
  rewrite E. replace (S (length a)) with (length (a ++ [if c then f_factor e else 0])) by (rewrite app_length; cbn; lia).
  rewrite IH; [|intros; apply Hnz; right; assumption|lia|lia].
  pose proof (Hnz e (or_introl eq_refl)). destruct c; cbn [sum_costs].
  - destruct (Z.eqb_spec (f_factor e) 0); [contradiction|reflexivity].
  - reflexivity.
Qed.

Lemma table_items_ok l : (forall e, In e l -> f_factor e <> 0) -> forall (R : list (rc F)) u a b, length R = length l -> length u = length l ->
  table_items (a ++ walk_row l u ++ b) (length a) R = Some (combine R u).
Proof.
  induction l as [|e l IH]; intros Hnz [|r R] [|c u] a b HR Hu; cbn [length] in *; try lia; [reflexivity|].
  cbn [table_items walk_row combine]. rewrite nth_error_app2, Nat.sub_diag by lia. cbn [app nth_error bind].
  assert (E : a ++ (if c then f_factor e else 0) :: walk_row l u ++ b = (a ++ [if c then f_factor e else 0]) ++ walk_row l u ++ b)
    by (rewrite <- app_assoc; reflexivity).
  rewrite E. replace (S (length a)) with (length (a ++ [if c then f_factor e else 0])) by (rewrite app_length; cbn; lia).
  rewrite IH; [|intros; apply Hnz; right; assumption|lia|lia]. cbn [bind].
  pose proof (Hnz e (or_introl eq_refl)). destruct c; [|reflexivity].
  destruct (Z.eqb_spec (f_factor e) 0); [contradiction|reflexivity].
Qed.

Section Table.
Context (mode : objective_type) (l : list felem) (flat : list Z) (start : nat) (sols : list (list bool)) (R : list (rc F)).
Hypothesis (Hnz : forall e, In e l -> f_factor e <> 0) (HR : length R = length l)
  (Hsol : forall u, In u sols -> length u = length l)
  (Hfl : exists pre post, flat = pre ++ flat_of l sols ++ post /\ length pre = start).

Lemma flat_at i u : nth_error sols i = Some u ->
  exists a b, flat = a ++ walk_row l u ++ b /\ length a = (start + i * length R)%nat.
Proof.
  intros Hu. destruct Hfl as [pre [post [-> <-]]].
  destruct (flat_of_split l sols i u Hsol Hu) as [a [b [E Ha]]].
  exists (pre ++ a), (b ++ post). rewrite E, <- !app_assoc. split; [reflexivity|]. rewrite app_length, HR. lia.
Qed.

Lemma table_cost_at i u z : nth_error sols i = Some u ->
  table_cost fo flat (start + i * length R) R z = Some (sum_costs fo (chosen R u) z).
Proof.
  intros Hu. destruct (flat_at i u Hu) as [a [b [E Ha]]]. rewrite <- Ha, E. apply table_cost_ok; try assumption.
  apply Hsol. eapply nth_error_In; eassumption.
Qed.

Lemma table_best_ok : forall n i ub best, (i + n = length sols)%nat -> nth_error sols best = Some ub ->
  exists best' ub', table_best fo mode flat start R n i (choice_cost fo R ub) best = Some best' /\
    nth_error sols best' = Some ub' /\
    better fo mode (choice_cost fo R ub) (choice_cost fo R ub') = false /\
    (forall j u, (i <= j)%nat -> nth_error sols j = Some u -> better fo mode (choice_cost fo R u) (choice_cost fo R ub') = false).
Proof.
  destruct (better_weak mode) as [B1 [B2 B3]].
  induction n as [|n IH]; intros i ub best Hi Hb; cbn [table_best].
  - exists best, ub. split; [reflexivity|]. split; [assumption|]. split; [apply B1|].
    intros j u Hj Hu. assert (j < length sols)%nat by (apply nth_error_Some; congruence). lia.
  - destruct (nth_error sols i) as [u|] eqn:Eu; [|apply nth_error_None in Eu; lia].
    rewrite (table_cost_at i u _ Eu). cbn [bind]. fold (choice_cost fo R u).
    destruct (better fo mode (choice_cost fo R u) (choice_cost fo R ub)) eqn:Eb.
    + destruct (IH (S i) u i) as [b' [u' [E [Hu' [Hbet Hall]]]]]; [lia|assumption|].
      exists b', u'. split; [exact E|]. split; [assumption|]. split.
      * destruct (better fo mode (choice_cost fo R ub) (choice_cost fo R u')) eqn:E2; [|reflexivity].
        rewrite (B2 _ _ _ Eb E2) in Hbet. discriminate.
      * intros j v Hj Hv. destruct (Nat.eq_dec j i) as [->|Hji]; [congruence|]. apply (Hall j); [lia|assumption].
    + destruct (IH (S i) ub best) as [b' [u' [E [Hu' [Hbet Hall]]]]]; [lia|assumption|].
      exists b', u'. split; [exact E|]. split; [assumption|]. split; [assumption|].
      intros j v Hj Hv. destruct (Nat.eq_dec j i) as [->|Hji]; [|apply (Hall j); [lia|assumption]].
      rewrite Eu in Hv. inversion Hv; subst. eauto.
Qed.
End Table.

Lemma ex_solve_ok mode ex r (R : list (rc F)) : row_tabled ex r -> (forall e, In e (x_elements r) -> f_factor e <> 0) ->
  (0 < length (x_elements r))%nat -> length R = length (x_elements r) ->
  exists R' sel u, ex_solve fo std_sort mode ex (x_k r) R = Some (R', sel) /\ Permutation R' R /\
    -1 <= sel <= Z.of_nat (length R) /\
    choice_ok (x_elements r) (x_lo r) (x_hi r) u /\
    Permutation (firstn (Z.to_nat (sel + 1)) R') (chosen R u) /\
    Permutation (skipn (Z.to_nat (sel + 1)) R') (not_chosen R u) /\
    (sel = Z.of_nat (length R) <-> not_chosen R u = []) /\ sel <> Z.of_nat (length R) - 1 /\
    ((2 <= length (x_elements r))%nat ->
     forall v, choice_ok (x_elements r) (x_lo r) (x_hi r) v -> better fo mode (choice_cost fo R v) (choice_cost fo R u) = false).
Proof.
  intros [s [pre [post [Hf [Hfl [Hne [Ha Hb]]]]]]] Hnz Hn HR. unfold ex_solve. rewrite Hf. cbn [bind ec_start ec_solutions].
  destruct s as [|u0 s]; [congruence|]. clear Hne.
  assert (Hsol : forall u, In u (u0 :: s) -> length u = length (x_elements r)) by (intros u Hu; apply Ha; assumption).
  assert (Hfl' : exists pre0 post0, ex_flat ex = pre0 ++ flat_of (x_elements r) (u0 :: s) ++ post0 /\ length pre0 = length pre) by eauto.
  pose proof (table_cost_at (x_elements r) (ex_flat ex) (length pre) (u0 :: s) R Hnz HR Hsol Hfl' 0 u0 (fl_of_Z fo 0) eq_refl) as E0.
  rewrite Nat.mul_0_l, Nat.add_0_r in E0. rewrite E0. cbn [bind]. fold (choice_cost fo R u0).
  destruct (table_best_ok mode (x_elements r) (ex_flat ex) (length pre) (u0 :: s) R Hnz HR Hsol Hfl' (length (u0 :: s) - 1) 1 u0 0%nat) as [best [u [E1 [Hu [Hbet Hall]]]]].
  { cbn [length]. lia. } { reflexivity. }
  rewrite E1. cbn [bind].
  destruct (flat_at (x_elements r) (ex_flat ex) (length pre) (u0 :: s) R HR Hsol Hfl' best u Hu) as [a [b [Ef Hla]]].
  rewrite <- Hla, Ef. 
  assert (Hlu : length u = length (x_elements r)) by (apply Hsol; eapply nth_error_In; eassumption).
  rewrite (table_items_ok (x_elements r) Hnz R u a b HR Hlu). cbn [bind].
  destruct (finish_ok mode R u) as [R' [sel [E2 [HP [Hsel [HT [HF [Hall1 Hl1]]]]]]]].
  { intros ->. cbn in HR. lia. } { lia. }
  exists R', sel, u. split; [exact E2|]. split; [assumption|]. split; [assumption|].
  split; [apply Ha; eapply nth_error_In; eassumption|]. split; [assumption|]. split; [assumption|]. split; [assumption|]. split; [assumption|].
  intros Hn2 v Hv. pose proof (Hb v Hn2 Hv) as Hin. apply In_nth_error in Hin. destruct Hin as [j Hj].
  destruct j as [|j]; [cbn in Hj; inversion Hj; subst; assumption|]. apply (Hall (S j)); [lia|assumption].
Qed.
End Solve_proofs.
