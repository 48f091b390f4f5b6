From Coq Require Import Ascii.
From Verif Require Import Base Problem_model Problem_spec Utils_model Utils_spec.
Open Scope Z_scope.

(** ** Casts *)
Lemma static_cast_id t z : 0 <= t_digits t -> t_min t <= z <= t_max t -> static_cast t z = z.
Proof.
  intros Hd H. unfold static_cast, t_min, t_max in *.
  assert (Hp : 0 < 2 ^ t_digits t) by (apply Z.pow_pos_nonneg; lia).
  destruct (t_signed t); cbn [andb].
  - rewrite Z.pow_add_r by lia. change (2 ^ 1) with 2.
    destruct (Z_lt_ge_dec z 0) as [Hz|Hz].
    + assert (Hm : z mod (2 ^ t_digits t * 2) = z + 2 ^ t_digits t * 2).
      { symmetry. apply Z.mod_unique with (q := -1); lia. }
      rewrite Hm. destruct (Z.ltb_spec (2 ^ t_digits t - 1) (z + 2 ^ t_digits t * 2)); lia.
    + rewrite Z.mod_small by lia. destruct (Z.ltb_spec (2 ^ t_digits t - 1) z); lia.
  - rewrite Z.add_0_r. apply Z.mod_small. lia.
Qed.
Lemma castable_exact target source arg :
  0 <= t_digits target -> 0 <= t_digits source -> t_min source <= arg <= t_max source ->
  is_numeric_castable target source arg = true <-> t_min target <= arg <= t_max target.
Proof.
  intros Ht Hs Ha. unfold is_numeric_castable.
  assert (Hpt : 0 < 2 ^ t_digits target) by (apply Z.pow_pos_nonneg; lia).
  assert (Hps : 0 < 2 ^ t_digits source) by (apply Z.pow_pos_nonneg; lia).
  destruct (Z.eqb_spec (t_digits target) (t_digits source)) as [He|He]; cbn [andb].
  - destruct (Bool.eqb (t_signed target) (t_signed source)) eqn:Eb.
    + apply Bool.eqb_prop in Eb. unfold t_min, t_max in *. rewrite Eb, He. tauto.
    + destruct (Z.ltb_spec (t_digits source) (t_digits target)) as [Hl|_]; [lia|].
      destruct target as [[] dt], source as [[] ds]; try discriminate; cbn [t_digits] in He; subst dt;
        unfold t_min, t_max in *; cbn [t_signed t_digits andb] in *.
      * rewrite static_cast_id by (unfold t_min, t_max; cbn [t_signed t_digits]; lia). rewrite Z.leb_le. lia.
      * rewrite static_cast_id by (unfold t_min, t_max; cbn [t_signed t_digits]; lia).
        rewrite static_cast_id by (unfold t_min, t_max; cbn [t_signed t_digits]; lia).
        destruct (Z.ltb_spec arg 0); [split; [discriminate|lia]|]. rewrite Z.leb_le. lia.
  - destruct (Z.ltb_spec (t_digits source) (t_digits target)) as [Hl|Hl].
    + assert (Hlt : 2 ^ t_digits source < 2 ^ t_digits target) by (apply Z.pow_lt_mono_r; lia).
      unfold t_min, t_max in *. destruct (t_signed target); cbn [orb]; rewrite ?Z.leb_le; destruct (t_signed source); split; intros; try reflexivity; lia.
    + assert (Hlt : 2 ^ t_digits target < 2 ^ t_digits source) by (apply Z.pow_lt_mono_r; lia).
      assert (Hmax : static_cast source (t_max target) = t_max target).
      { apply static_cast_id; [assumption|]. unfold t_min, t_max. destruct (t_signed source); lia. }
      rewrite Hmax. destruct (t_signed source) eqn:E2; cbn [andb].
      * assert (Hmin : static_cast source (t_min target) = t_min target).
        { apply static_cast_id; [assumption|]. unfold t_min, t_max. rewrite E2. destruct (t_signed target); lia. }
        rewrite Hmin. destruct (Z.ltb_spec arg (t_min target)); [split; [discriminate|lia]|]. rewrite Z.leb_le. lia.
      * rewrite Z.leb_le. unfold t_min in *. rewrite E2 in Ha. destruct (t_signed target); lia.
Qed.

(** ** String buffer *)
Section Buffer.
Variable node : nat.
Definition sb_inv (b : sbuffer) : Prop :=
  Forall (fun n => length n = node) (sb_nodes b) /\ (sb_position b <= node)%nat /\
  (sb_nodes b = [] -> sb_position b = 0%nat).
(** Positions that later calls do not write. *)
Definition behind (b : sbuffer) (v : view) : Prop :=
  (vw_node v < length (sb_nodes b))%nat /\ (vw_pos v + vw_size v <= node)%nat /\
  (S (vw_node v) = length (sb_nodes b) -> vw_pos v + vw_size v <= sb_position b)%nat.

Lemma write_at_some n pos s : (pos + length s <= length n)%nat ->
  exists n', write_at n pos s = Some n' /\ length n' = length n /\
    firstn (length s) (skipn pos n') = s /\
    (forall p k, (p + k <= pos)%nat -> firstn k (skipn p n') = firstn k (skipn p n)).
Proof.
  intros H. unfold write_at. rewrite (proj2 (Nat.leb_le _ _) H). eexists. split; [reflexivity|]. split; [|split].
  - rewrite !app_length, firstn_length, skipn_length. lia.
  - rewrite skipn_app, firstn_length, skipn_all2 by (rewrite firstn_length; lia).
    replace (pos - Nat.min pos (length n))%nat with 0%nat by lia. cbn [skipn app].
    rewrite firstn_app, firstn_all, Nat.sub_diag. cbn. apply app_nil_r.
  - intros p k Hp. rewrite skipn_app, firstn_app, skipn_length, firstn_length.
    replace (k - (Nat.min pos (length n) - p))%nat with 0%nat by lia. rewrite firstn_O, app_nil_r.
    rewrite skipn_firstn_comm, firstn_firstn. f_equal. lia.
Qed.

Lemma append_ok b s : sb_inv b -> (length s <= node)%nat ->
  exists b' v, sb_append node b s = Some (b', v) /\ sb_inv b' /\ sb_read b' v = Some s /\ behind b' v /\
    forall u, behind b u -> behind b' u /\ sb_read b' u = sb_read b u.
Proof.
  intros (Hn & Hp & He) Hs. unfold sb_append.
  set (cond := Nat.eqb (length (sb_nodes b)) 0 || Nat.ltb node (length s + sb_position b)).
  set (b1 := if cond then mk_sbuffer (sb_nodes b ++ [repeat zero node]) 0 else b).
  assert (H1 : Forall (fun n => length n = node) (sb_nodes b1) /\ sb_nodes b1 <> [] /\
               (sb_position b1 + length s <= node)%nat /\
               (forall u, behind b u -> behind b1 u /\ sb_read b1 u = sb_read b u)).
  { unfold b1. destruct cond eqn:Ec; cbn [sb_nodes sb_position].
    - split; [|split; [|split]].
      + apply Forall_app. split; [assumption|]. repeat constructor. apply repeat_length.
      + destruct (sb_nodes b); discriminate.
      + lia.
      + intros u (H1 & H2 & H3). split.
        * split; [cbn [sb_nodes]; rewrite app_length; lia|]. split; [lia|]. cbn [sb_nodes]. rewrite app_length. cbn. lia.
        * unfold sb_read. cbn [sb_nodes]. rewrite nth_error_app1 by assumption. reflexivity.
    - unfold cond in Ec. apply Bool.orb_false_iff in Ec. destruct Ec as [E1 E2]. apply Nat.eqb_neq in E1. apply Nat.ltb_ge in E2.
      split; [assumption|]. split; [intros G; rewrite G in E1; apply E1; reflexivity|]. split; [lia|]. auto. }
  clearbody b1. destruct H1 as (Hn1 & Hne & Hfit & Hold).
  assert (Hk : (Nat.pred (length (sb_nodes b1)) < length (sb_nodes b1))%nat) by (destruct (sb_nodes b1); [contradiction|cbn; lia]).
  destruct (nth_error (sb_nodes b1) (Nat.pred (length (sb_nodes b1)))) as [n|] eqn:En; [|apply nth_error_None in En; lia].
  assert (Hln : length n = node) by (rewrite Forall_forall in Hn1; apply Hn1; eapply nth_error_In; eassumption).
  cbn [bind].
  destruct (write_at_some n (sb_position b1) s ltac:(lia)) as (n' & -> & Hl' & Hr & Hkeep). cbn [bind].
  destruct (list_upd_some (sb_nodes b1) _ n' Hk) as [nodes Hu]. rewrite Hu. cbn [bind].
  pose proof (list_upd_length _ _ _ _ Hu) as Hlen.
  exists (mk_sbuffer nodes (sb_position b1 + length s)), (mk_view (Nat.pred (length (sb_nodes b1))) (sb_position b1) (length s)).
  split; [reflexivity|]. split; [|split; [|split]].
  - split; [|split; [cbn; lia|]].
    + cbn [sb_nodes]. apply Forall_forall. intros m Hm. apply In_nth_error in Hm. destruct Hm as [j Hj].
      rewrite (list_upd_nth _ _ _ _ j Hu) in Hj. destruct (Nat.eqb_spec j (Nat.pred (length (sb_nodes b1)))).
      * inversion Hj; subst. lia.
      * rewrite Forall_forall in Hn1. apply Hn1. eapply nth_error_In; eassumption.
    + cbn [sb_nodes]. intros ->. cbn in Hlen. lia.
  - unfold sb_read. cbn [sb_nodes vw_node vw_pos vw_size]. rewrite (list_upd_nth _ _ _ _ _ Hu), Nat.eqb_refl. cbn [bind].
    rewrite (proj2 (Nat.leb_le _ _)) by lia. rewrite Hr. reflexivity.
  - split; [cbn [sb_nodes vw_node]; lia|]. split; [cbn; lia|]. cbn. lia.
  - intros u Hu0. destruct (Hold u Hu0) as [(B1 & B2 & B3) Hread]. split.
    + split; [cbn [sb_nodes]; lia|]. split; [assumption|]. cbn [sb_nodes sb_position]. intros G. specialize (B3 ltac:(lia)). lia.
    + rewrite <- Hread. unfold sb_read. cbn [sb_nodes]. rewrite (list_upd_nth _ _ _ _ _ Hu).
      destruct (Nat.eqb_spec (vw_node u) (Nat.pred (length (sb_nodes b1)))) as [Hq|Hq]; [|reflexivity].
      rewrite Hq, En. cbn [bind]. rewrite Hl'. destruct (Nat.leb _ _); [|reflexivity]. f_equal.
      apply Hkeep. apply B3. lia.
Qed.
Lemma append_all_ok l : forall b, sb_inv b -> Forall (fun s => length s <= node)%nat l ->
  exists b' vs, sb_append_all node b l = Some (b', vs) /\ sb_inv b' /\
    Forall2 (fun s v => sb_read b' v = Some s) l vs /\
    forall u, behind b u -> behind b' u /\ sb_read b' u = sb_read b u.
Proof.
  induction l as [|s l IH]; intros b Hb Hl.
  - exists b, []. split; [reflexivity|]. split; [assumption|]. split; [constructor|auto].
  - inversion Hl as [|? ? Hs Hl']; subst. destruct (append_ok b s Hb Hs) as (b1 & v & Ha & Hb1 & Hr & Hv & Hold).
    destruct (IH b1 Hb1 Hl') as (b2 & vs & Ha2 & Hb2 & Hf & Hold2).
    exists b2, (v :: vs). split; [cbn [sb_append_all]; rewrite Ha; cbn [bind fst snd]; rewrite Ha2; reflexivity|].
    split; [assumption|]. split.
    + constructor; [|assumption]. destruct (Hold2 v Hv) as [_ ->]. exact Hr.
    + intros u Hu. destruct (Hold u Hu) as [Hu1 Hr1]. destruct (Hold2 u Hu1) as [Hu2 Hr2]. split; [assumption|congruence].
Qed.
Lemma append_too_long b s : sb_inv b -> (node < length s)%nat -> sb_append node b s = None.
Proof.
  intros (Hn & Hp & _) Hs. unfold sb_append.
  rewrite (proj2 (Nat.ltb_lt _ _)) by lia. rewrite Bool.orb_true_r. cbn [sb_nodes sb_position].
  rewrite app_length. cbn [length]. rewrite Nat.add_1_r. cbn [Nat.pred].
  rewrite nth_error_app2, Nat.sub_diag by lia. cbn [nth_error bind]. unfold write_at. rewrite repeat_length.
  cbn [Nat.add]. rewrite (proj2 (Nat.leb_gt _ _)) by lia. reflexivity.
Qed.
End Buffer.

(** ** Range of the objective *)
Lemma add_min_max_bounds f b m v : fst m <= v <= snd m ->
  fst (add_min_max f m) <= v + f * bz b <= snd (add_min_max f m).
Proof. intros H. unfold add_min_max, bz. destruct (Z.ltb_spec f 0); destruct b; cbn [fst snd]; lia. Qed.
Lemma linear_bounds x l : forall m v, fst m <= v <= snd m ->
  let m' := fold_left (fun m e => add_min_max (o_factor e) m) l m in fst m' <= v + lin_value x l <= snd m'.
Proof.
  induction l as [|e l IH]; intros m v H; cbn [fold_left lin_value]; cbv zeta; [lia|].
  pose proof (add_min_max_bounds (o_factor e) (x (o_var e)) m v H) as H'. specialize (IH _ _ H'). cbv zeta in IH.
  rewrite Z.add_assoc. exact IH.
Qed.
Lemma quad_bounds x l : forall m v, fst m <= v <= snd m ->
  let m' := fold_left (fun m e => add_min_max (q_factor e) m) l m in fst m' <= v + quad_value x l <= snd m'.
Proof.
  induction l as [|e l IH]; intros m v H; cbn [fold_left quad_value]; cbv zeta; [lia|].
  pose proof (add_min_max_bounds (q_factor e) (x (q_vara e) && x (q_varb e)) m v H) as H'. specialize (IH _ _ H'). cbv zeta in IH.
  replace (bz (x (q_vara e)) * bz (x (q_varb e))) with (bz (x (q_vara e) && x (q_varb e)))
    by (destruct (x (q_vara e)), (x (q_varb e)); reflexivity).
  rewrite Z.add_assoc. exact IH.
Qed.
(** With distinct variables and no quadratic part, both ends are reached. *)
Lemma linear_reached_min l : forall m, NoDup (map o_var l) ->
  exists x, fst (fold_left (fun m e => add_min_max (o_factor e) m) l m) = fst m + lin_value x l.
Proof.
  induction l as [|e l IH]; intros m Hn; [exists (fun _ => false); cbn; lia|].
  cbn [map] in Hn. inversion Hn as [|? ? Hni Hn']; subst. destruct (IH (add_min_max (o_factor e) m) Hn') as [x Hx].
  exists (fun v => if Nat.eqb v (o_var e) then o_factor e <? 0 else x v). cbn [fold_left]. rewrite Hx. cbn [lin_value].
  rewrite Nat.eqb_refl.
  assert (Hl : lin_value (fun v => if Nat.eqb v (o_var e) then o_factor e <? 0 else x v) l = lin_value x l).
  { clear -Hni. induction l as [|a l IH]; [reflexivity|]. cbn [lin_value]. cbn in Hni.
    destruct (Nat.eqb_spec (o_var a) (o_var e)) as [E|E]; [exfalso; apply Hni; left; congruence|]. rewrite IH by tauto. reflexivity. }
  rewrite Hl. unfold add_min_max, bz. destruct (Z.ltb_spec (o_factor e) 0); cbn [fst]; lia.
Qed.
Lemma linear_reached_max l : forall m, NoDup (map o_var l) ->
  exists x, snd (fold_left (fun m e => add_min_max (o_factor e) m) l m) = snd m + lin_value x l.
Proof.
  induction l as [|e l IH]; intros m Hn; [exists (fun _ => false); cbn; lia|].
  cbn [map] in Hn. inversion Hn as [|? ? Hni Hn']; subst. destruct (IH (add_min_max (o_factor e) m) Hn') as [x Hx].
  exists (fun v => if Nat.eqb v (o_var e) then negb (o_factor e <? 0) else x v). cbn [fold_left]. rewrite Hx. cbn [lin_value].
  rewrite Nat.eqb_refl.
  assert (Hl : lin_value (fun v => if Nat.eqb v (o_var e) then negb (o_factor e <? 0) else x v) l = lin_value x l).
  { clear -Hni. induction l as [|a l IH]; [reflexivity|]. cbn [lin_value]. cbn in Hni.
    destruct (Nat.eqb_spec (o_var a) (o_var e)) as [E|E]; [exfalso; apply Hni; left; congruence|]. rewrite IH by tauto. reflexivity. }
  rewrite Hl. unfold add_min_max, bz. destruct (Z.ltb_spec (o_factor e) 0); cbn [snd negb]; lia.
Qed.

(** ** Trim *)
Lemma is_blank_white c : is_blank c = true <-> white c.
Proof.
  unfold is_blank, white. rewrite existsb_exists. split.
  - intros (n & Hn & He). apply Nat.eqb_eq in He. subst. assumption.
  - intros H. eexists. split; [exact H|]. apply Nat.eqb_refl.
Qed.
Lemma find_first_spec s : forall i, match find_first_not_of s i with
  | None => Forall white s
  | Some j => exists a c b, s = a ++ c :: b /\ Forall white a /\ ~ white c /\ j = (i + length a)%nat end.
Proof.
  induction s as [|c s IH]; intros i; cbn [find_first_not_of]; [constructor|]. destruct (is_blank c) eqn:E.
  - apply is_blank_white in E. specialize (IH (S i)). destruct (find_first_not_of s (S i)).
    + destruct IH as (a & c' & b & -> & Ha & Hc & ->). exists (c :: a), c', b. split; [reflexivity|].
      split; [constructor; assumption|]. split; [assumption|]. cbn. lia.
    + constructor; assumption.
  - exists [], c, s. split; [reflexivity|]. split; [constructor|]. split; [|cbn; lia].
    intros G. apply is_blank_white in G. congruence.
Qed.
Lemma left_trim_spec s : (left_trim s = [] /\ Forall white s) \/
  exists a c b, s = a ++ c :: b /\ Forall white a /\ ~ white c /\ left_trim s = c :: b.
Proof.
  unfold left_trim. pose proof (find_first_spec s 0) as H. destruct (find_first_not_of s 0) as [j|]; [|left; auto].
  right. destruct H as (a & c & b & -> & Ha & Hc & ->). exists a, c, b. split; [reflexivity|]. split; [assumption|]. split; [assumption|].
  cbn [Nat.add]. rewrite skipn_app, skipn_all, Nat.sub_diag. reflexivity.
Qed.
Lemma right_trim_spec s : (right_trim s = [] /\ Forall white s) \/
  exists a c b, s = a ++ c :: b /\ Forall white b /\ ~ white c /\ right_trim s = a ++ [c].
Proof.
  unfold right_trim, find_last_not_of. pose proof (find_first_spec (rev s) 0) as H. destruct (find_first_not_of (rev s) 0) as [j|]; cbn [option_map].
  - right. destruct H as (a & c & b & Hs & Ha & Hc & ->). apply (f_equal (@rev ascii)) in Hs. rewrite rev_involutive, rev_app_distr in Hs.
    cbn [rev] in Hs. rewrite <- app_assoc in Hs. cbn [app] in Hs. exists (rev b), c, (rev a). split; [exact Hs|].
    split; [apply Forall_rev; assumption|]. split; [assumption|]. rewrite Hs at 2.
    assert (Hl : length s = (length (rev b) + S (length a))%nat) by (rewrite Hs, app_length; cbn [length]; rewrite !rev_length; lia).
    replace (length s - 1 - (0 + length a) + 1)%nat with (length (rev b) + 1)%nat by lia.
    rewrite firstn_app_2. reflexivity.
  - left. split; [reflexivity|]. rewrite <- (rev_involutive s). apply Forall_rev. assumption.
Qed.
