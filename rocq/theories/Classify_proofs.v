From Verif Require Import Base Problem_model Problem_spec Merged_model Merged_spec Merged_proofs
  Classify_model Classify_spec.
Open Scope Z_scope.

(** ** coefficient_type *)
Definition elems_of (l : list constraint) : list felem := flat_map c_elements l.

(** Flattened loop: the early return makes the two nested loops equal one loop. *)
Lemma coef_elems_flat l : forall ret rest,
  match coef_elems (l ++ rest) ret with inl r => r | inr r => r end =
  match coef_elems l ret with
  | inl r => match coef_elems rest r with inl r' => r' | inr r' => r' end
  | inr r => r
  end.
Proof.
  induction l as [|e l IH]; intros ret rest; cbn [app coef_elems]; [reflexivity|].
  destruct ((f_factor e =? -1) && (ret =? 0)); [apply IH|].
  destruct ((f_factor e <=? -2) || (2 <=? f_factor e)); [reflexivity|apply IH].
Qed.
Lemma coef_csts_flat l : forall ret,
  coef_csts l ret = match coef_elems (elems_of l) ret with inl r => r | inr r => r end.
Proof.
  induction l as [|c l IH]; intros ret; cbn [coef_csts elems_of flat_map]; [reflexivity|].
  rewrite coef_elems_flat. destruct (coef_elems (c_elements c) ret); [apply IH|reflexivity].
Qed.

Lemma coef_elems_range l : forall ret, 0 <= ret <= 1 ->
  match coef_elems l ret with
  | inl r => 0 <= r <= 1 /\ ret <= r /\
      (forall e, In e l -> -1 <= f_factor e <= 1) /\
      (r = 0 -> forall e, In e l -> f_factor e <> -1) /\
      (r = 1 -> ret = 0 -> exists e, In e l /\ f_factor e = -1)
  | inr r => r = 2 /\ exists e, In e l /\ (f_factor e <= -2 \/ 2 <= f_factor e)
  end.
Proof.
  induction l as [|e l IH]; intros ret Hr; cbn [coef_elems].
  - split; [assumption|]. split; [lia|]. split; [intros e []|]. split; [intros _ e []|]. lia.
  - destruct (Z.eqb_spec (f_factor e) (-1)) as [He|He]; destruct (Z.eqb_spec ret 0) as [Hz|Hz]; cbn [andb].
    + specialize (IH 1 ltac:(lia)). destruct (coef_elems l 1) as [r|r].
      * destruct IH as (H1 & H2 & H3 & H4 & H5).
        split; [assumption|]. split; [lia|]. split; [|split].
        -- intros z [<-|Hin]; [lia|auto].
        -- intros Hq0. lia.
        -- intros _ _. exists e. split; [left; reflexivity|assumption].
      * destruct IH as (H1 & z & Hin & H2). split; [assumption|]. exists z. split; [right; assumption|assumption].
    + replace ((f_factor e <=? -2) || (2 <=? f_factor e)) with false.
      2:{ destruct (Z.leb_spec (f_factor e) (-2)), (Z.leb_spec 2 (f_factor e)); cbn; try reflexivity; lia. }
      specialize (IH ret Hr). destruct (coef_elems l ret) as [r|r].
      * destruct IH as (H1 & H2 & H3 & H4 & H5).
        split; [assumption|]. split; [lia|]. split; [|split].
        -- intros z [<-|Hin]; [lia|auto].
        -- intros Hq0. lia.
        -- intros _ Hq0. lia.
      * destruct IH as (H1 & z & Hin & H2). split; [assumption|]. exists z. split; [right; assumption|assumption].
    + destruct (Z.leb_spec (f_factor e) (-2)), (Z.leb_spec 2 (f_factor e)); cbn [orb].
      1-3: split; [reflexivity|]; exists e; split; [left; reflexivity|lia].
      specialize (IH ret Hr). destruct (coef_elems l ret) as [r|r].
      * destruct IH as (H1 & H2 & H3 & H4 & H5).
        split; [assumption|]. split; [lia|]. split; [|split].
        -- intros z [<-|Hin]; [lia|auto].
        -- intros Hq0 z [<-|Hin]; [assumption|auto].
        -- intros Ha Hb. destruct (H5 Ha Hb) as (z & Hin & Hzz). exists z. split; [right; assumption|assumption].
      * destruct IH as (H1 & z & Hin & H2). split; [assumption|]. exists z. split; [right; assumption|assumption].
    + destruct (Z.leb_spec (f_factor e) (-2)), (Z.leb_spec 2 (f_factor e)); cbn [orb].
      1-3: split; [reflexivity|]; exists e; split; [left; reflexivity|lia].
      specialize (IH ret Hr). destruct (coef_elems l ret) as [r|r].
      * destruct IH as (H1 & H2 & H3 & H4 & H5).
        split; [assumption|]. split; [lia|]. split; [|split].
        -- intros z [<-|Hin]; [lia|auto].
        -- intros Hq0 z [<-|Hin]; [assumption|auto].
        -- intros Ha Hb. lia.
      * destruct IH as (H1 & z & Hin & H2). split; [assumption|]. exists z. split; [right; assumption|assumption].
Qed.

Definition has (P : Z -> Prop) (l : list constraint) : Prop :=
  exists c e, In c l /\ In e (c_elements c) /\ P (f_factor e).

Lemma elems_of_in l e : In e (elems_of l) <-> exists c, In c l /\ In e (c_elements c).
Proof. unfold elems_of. apply in_flat_map. Qed.

Lemma coefficient_type_of_spec l :
  let t := coefficient_type_of l in
  (t = 2 /\ has (fun z => z <= -2 \/ 2 <= z) l) \/
  (t = 1 /\ (forall c e, In c l -> In e (c_elements c) -> -1 <= f_factor e <= 1) /\ has (fun z => z = -1) l) \/
  (t = 0 /\ (forall c e, In c l -> In e (c_elements c) -> 0 <= f_factor e <= 1)).
Proof.
  cbn zeta. unfold coefficient_type_of. rewrite coef_csts_flat.
  pose proof (coef_elems_range (elems_of l) 0 ltac:(lia)) as H.
  destruct (coef_elems (elems_of l) 0) as [r|r].
  - destruct H as (H1 & _ & H3 & H4 & H5).
    destruct (Z.eq_dec r 0) as [->|Hr].
    + right; right. split; [reflexivity|]. intros c e Hc He.
      assert (Hin : In e (elems_of l)) by (apply elems_of_in; eauto).
      specialize (H3 e Hin). specialize (H4 eq_refl e Hin). lia.
    + assert (r = 1) by lia. subst r. right; left. split; [reflexivity|]. split.
      * intros c e Hc He. apply H3. apply elems_of_in; eauto.
      * destruct (H5 eq_refl eq_refl) as (e & Hin & He). apply elems_of_in in Hin.
        destruct Hin as (c & Hc & Hin). exists c, e. auto.
  - destruct H as (-> & e & Hin & He). left. split; [reflexivity|].
    apply elems_of_in in Hin. destruct Hin as (c & Hc & Hin). exists c, e. auto.
Qed.

Lemma all_in pb c : In c (all_constraints pb) <-> In c (p_equal pb) \/ In c (p_greater pb) \/ In c (p_less pb).
Proof. unfold all_constraints. rewrite !in_app_iff. reflexivity. Qed.

Lemma coefficient_type_spec pb :
  let t := coefficient_type pb in
  (t = 2 /\ has (fun z => z <= -2 \/ 2 <= z) (all_constraints pb)) \/
  (t = 1 /\ (forall c e, In c (all_constraints pb) -> In e (c_elements c) -> -1 <= f_factor e <= 1) /\
     has (fun z => z = -1) (all_constraints pb)) \/
  (t = 0 /\ (forall c e, In c (all_constraints pb) -> In e (c_elements c) -> 0 <= f_factor e <= 1)).
Proof.
  cbn zeta. unfold coefficient_type.
  pose proof (coefficient_type_of_spec (p_equal pb)) as H1.
  pose proof (coefficient_type_of_spec (p_less pb)) as H2.
  pose proof (coefficient_type_of_spec (p_greater pb)) as H3.
  cbn zeta in *.
  set (a := coefficient_type_of (p_equal pb)) in *.
  set (b := coefficient_type_of (p_less pb)) in *.
  set (d := coefficient_type_of (p_greater pb)) in *.
  assert (Hhas : forall P, has P (p_equal pb) \/ has P (p_greater pb) \/ has P (p_less pb) ->
                 has P (all_constraints pb)).
  { intros P [H|[H|H]]; destruct H as (c & e & Hc & He & HP); exists c, e; (split; [apply all_in; auto|auto]). }
  destruct (Z.eq_dec (Z.max a (Z.max b d)) 2) as [E|E].
  - left. split; [assumption|]. apply Hhas.
    destruct H1 as [[? ?]|[(? & _)|[? _]]]; [auto| |];
    destruct H2 as [[? ?]|[(? & _)|[? _]]]; auto;
    destruct H3 as [[? ?]|[(? & _)|[? _]]]; auto; lia.
  - right.
    assert (Ha : a <> 2) by (destruct H1 as [[? ?]|[(? & _)|[? _]]]; destruct H2 as [[? ?]|[(? & _)|[? _]]]; destruct H3 as [[? ?]|[(? & _)|[? _]]]; lia).
    assert (Hb : b <> 2) by (destruct H1 as [[? ?]|[(? & _)|[? _]]]; destruct H2 as [[? ?]|[(? & _)|[? _]]]; destruct H3 as [[? ?]|[(? & _)|[? _]]]; lia).
    assert (Hd : d <> 2) by (destruct H1 as [[? ?]|[(? & _)|[? _]]]; destruct H2 as [[? ?]|[(? & _)|[? _]]]; destruct H3 as [[? ?]|[(? & _)|[? _]]]; lia).
    destruct H1 as [[? ?]|H1]; [lia|]. destruct H2 as [[? ?]|H2]; [lia|]. destruct H3 as [[? ?]|H3]; [lia|].
    assert (R : forall l z, (z = 1 /\ (forall c e, In c l -> In e (c_elements c) -> -1 <= f_factor e <= 1) /\ has (fun z => z = -1) l) \/
                (z = 0 /\ (forall c e, In c l -> In e (c_elements c) -> 0 <= f_factor e <= 1)) ->
                forall c e, In c l -> In e (c_elements c) -> -1 <= f_factor e <= 1).
    { intros l z [(_ & H & _)|(_ & H)] c e Hc He; [apply (H c e Hc He)|]. specialize (H c e Hc He). lia. }
    destruct (Z.eq_dec (Z.max a (Z.max b d)) 1) as [E1|E1].
    + left. split; [assumption|]. split.
      * intros c e Hc He. apply all_in in Hc. destruct Hc as [Hc|[Hc|Hc]].
        -- exact (R _ _ H1 c e Hc He).
        -- exact (R _ _ H3 c e Hc He).
        -- exact (R _ _ H2 c e Hc He).
      * apply Hhas. destruct H1 as [(? & _ & ?)|(? & _)]; auto.
        destruct H2 as [(? & _ & ?)|(? & _)]; auto.
        destruct H3 as [(? & _ & ?)|(? & _)]; auto. lia.
    + right.
      destruct H1 as [(? & _)|(? & H1)]; [destruct H2 as [(? & _)|(? & H2)]; destruct H3 as [(? & _)|(? & H3)]; lia|].
      destruct H2 as [(? & _)|(? & H2)]; [destruct H3 as [(? & _)|(? & H3)]; lia|].
      destruct H3 as [(? & _)|(? & H3)]; [lia|].
      split; [lia|]. intros c e Hc He. apply all_in in Hc. destruct Hc as [Hc|[Hc|Hc]]; eauto.
Qed.

Lemma is_nil_spec {A} (l : list A) : reflect (l = []) (is_nil l).
Proof. destruct l; cbn; constructor; congruence. Qed.

(** The chosen class fits, under the assumption that no coefficient is zero. *)
Lemma which_fits pb : all_factors factor_nonzero pb -> class_fits (which_problem_type pb) pb.
Proof.
  intros Hnz. unfold class_fits, which_problem_type.
  pose proof (coefficient_type_spec pb) as H. cbn zeta in H.
  set (t := coefficient_type pb) in *.
  assert (H01 : t = 0 -> all_factors factor_1 pb).
  { intros Ht c e Hc He. specialize (Hnz c e Hc He). unfold factor_1, factor_nonzero in *.
    destruct H as [(? & _)|[(? & _)|(_ & H)]]; [lia|lia|]. specialize (H c e Hc He). lia. }
  assert (H101 : t = 1 -> all_factors factor_101 pb).
  { intros Ht c e Hc He. specialize (Hnz c e Hc He). unfold factor_101, factor_nonzero in *.
    destruct H as [(? & _)|[(_ & H & _)|(? & _)]]; [lia| |lia]. specialize (H c e Hc He). lia. }
  destruct (is_nil_spec (p_greater pb)) as [Hg|Hg]; destruct (is_nil_spec (p_less pb)) as [Hl|Hl]; cbn [andb];
    destruct (Z.eqb_spec t 0); [|destruct (Z.eqb_spec t 1)| |destruct (Z.eqb_spec t 1)| |destruct (Z.eqb_spec t 1)| |destruct (Z.eqb_spec t 1)];
    cbn; unfold only_equalities; auto.
Qed.

(** ... and is the most specific one that fits. *)
Lemma which_minimal pb t' :
  class_fits t' pb ->
  (rank_coef (which_problem_type pb) <= rank_coef t')%nat /\
  (rank_op (which_problem_type pb) <= rank_op t')%nat.
Proof.
  intros [Hc Ho]. unfold which_problem_type.
  pose proof (coefficient_type_spec pb) as H. cbn zeta in H.
  set (t := coefficient_type pb) in *.
  assert (Hlow : (t = 0 \/ (t = 1 /\ (1 <= rank_coef t')%nat) \/ (t = 2 /\ (2 <= rank_coef t')%nat))).
  { destruct H as [(Ht & c & e & Hin & He & Hf)|[(Ht & _ & c & e & Hin & He & Hf)|(Ht & _)]]; [| |auto].
    - right; right. split; [assumption|].
      destruct t'; cbn in *; try lia; exfalso; specialize (Hc c e Hin He); unfold factor_1, factor_101 in Hc; lia.
    - right; left. split; [assumption|].
      destruct t'; cbn in *; try lia; exfalso; specialize (Hc c e Hin He); unfold factor_1 in Hc; lia. }
  split.
  - destruct (is_nil (p_greater pb) && is_nil (p_less pb));
      (destruct (Z.eqb_spec t 0); [cbn; lia|destruct (Z.eqb_spec t 1); cbn; lia]).
  - destruct (is_nil_spec (p_greater pb)) as [Hg|Hg]; destruct (is_nil_spec (p_less pb)) as [Hl|Hl]; cbn [andb].
    1: destruct (t =? 0), (t =? 1); cbn; lia.
    all: assert (rank_op t' = 1)%nat by (destruct t'; cbn in Ho; try reflexivity; destruct Ho; contradiction);
      destruct (t =? 0), (t =? 1); cbn; lia.
Qed.

(** ** Range of a left-hand side *)
Lemma lhs_nonneg_range x l : (forall e, In e l -> f_factor e = 1) -> 0 <= lhs x l <= Z.of_nat (length l).
Proof.
  induction l as [|e l IH]; intros H; cbn [lhs length]; [lia|].
  assert (He : f_factor e = 1) by (apply H; left; reflexivity).
  specialize (IH ltac:(intros z Hz; apply H; right; assumption)).
  rewrite He. unfold bz. destruct (x (f_var e)); lia.
Qed.
Lemma count_pos_cons e l : count_pos (e :: l) = (if 0 <? f_factor e then 1 else 0) + count_pos l.
Proof. unfold count_pos. cbn [filter]. destruct (0 <? f_factor e); cbn [length]; lia. Qed.
Lemma count_neg_cons e l : count_neg (e :: l) = (if 0 <? f_factor e then 0 else 1) + count_neg l.
Proof. unfold count_neg. cbn [filter]. destruct (0 <? f_factor e); cbn [length negb]; lia. Qed.
Lemma count_total l : count_pos l + count_neg l = Z.of_nat (length l).
Proof.
  induction l as [|e l IH]; [reflexivity|]. rewrite count_pos_cons, count_neg_cons.
  cbn [length]. destruct (0 <? f_factor e); lia.
Qed.
Lemma lhs_101_range x l : (forall e, In e l -> f_factor e = 1 \/ f_factor e = -1) ->
  - count_neg l <= lhs x l <= count_pos l.
Proof.
  induction l as [|e l IH]; intros H; [cbn; lia|]. cbn [lhs].
  specialize (IH ltac:(intros z Hz; apply H; right; assumption)).
  rewrite count_pos_cons, count_neg_cons.
  destruct (H e ltac:(left; reflexivity)) as [He|He]; rewrite He; cbn [Z.ltb Z.compare];
    unfold bz; destruct (x (f_var e)); lia.
Qed.
Lemma sum_pos_acc l : forall a, fold_left (fun a e => if 0 <? f_factor e then a + f_factor e else a) l a = a + sum_pos l.
Proof.
  unfold sum_pos. induction l as [|e l IH]; intros a; cbn [fold_left]; [lia|].
  rewrite (IH (if 0 <? f_factor e then a + f_factor e else a)), (IH (if 0 <? f_factor e then 0 + f_factor e else 0)).
  destruct (0 <? f_factor e); lia.
Qed.
Lemma sum_neg_acc l : forall a, fold_left (fun a e => if 0 <? f_factor e then a else a + f_factor e) l a = a + sum_neg l.
Proof.
  unfold sum_neg. induction l as [|e l IH]; intros a; cbn [fold_left]; [lia|].
  rewrite (IH (if 0 <? f_factor e then a else a + f_factor e)), (IH (if 0 <? f_factor e then 0 else 0 + f_factor e)).
  destruct (0 <? f_factor e); lia.
Qed.
Lemma lhs_Z_range x l : sum_neg l <= lhs x l <= sum_pos l.
Proof.
  induction l as [|e l IH]; [cbn; lia|]. cbn [lhs].
  assert (Hp : sum_pos (e :: l) = (if 0 <? f_factor e then f_factor e else 0) + sum_pos l).
  { unfold sum_pos at 1. cbn [fold_left]. rewrite sum_pos_acc. destruct (0 <? f_factor e); lia. }
  assert (Hn : sum_neg (e :: l) = (if 0 <? f_factor e then 0 else f_factor e) + sum_neg l).
  { unfold sum_neg at 1. cbn [fold_left]. rewrite sum_neg_acc. destruct (0 <? f_factor e); lia. }
  rewrite Hp, Hn. destruct (Z.ltb_spec 0 (f_factor e)); unfold bz; destruct (x (f_var e)); lia.
Qed.

(** ** The constructors *)
Definition row_factors (P : Z -> Prop) (c : merged) : Prop :=
  forall e, In e (m_elements c) -> P (f_factor e).
Definition accepts (s : solver_class) (c : merged) : Prop :=
  match s with
  | S_equalities_01 => row_factors factor_1 c /\ m_min c = m_max c
  | S_equalities_101 => row_factors factor_101 c /\ m_min c = m_max c
  | S_inequalities_01 => row_factors factor_1 c
  | S_inequalities_101 | S_random => row_factors factor_101 c
  | S_inequalities_Z => row_factors factor_nonzero c
  end.

Lemma forallb_in {A} (f : A -> bool) l : (forall a, In a l -> f a = true) -> forallb f l = true.
Proof. intros H. apply forallb_forall. exact H. Qed.

(** A row whose coefficients fit the class and that some assignment satisfies is
    accepted, and the bounds kept say the same as the row. *)
Lemma ctor_row_ok s c x0 :
  accepts s c -> m_min c <= lhs x0 (m_elements c) <= m_max c ->
  exists b, ctor_row s c = Ok b /\
    forall x, fst b <= lhs x (m_elements c) <= snd b <-> m_min c <= lhs x (m_elements c) <= m_max c.
Proof.
  intros Ha Hx. destruct s; cbn [accepts] in Ha; cbn [ctor_row].
  - destruct Ha as [Hf He]. unfold ctor_equalities_01, ensures.
    rewrite forallb_in by (intros e Hin; apply Z.eqb_eq; apply (Hf e Hin)).
    rewrite (proj2 (Z.eqb_eq _ _) He). eexists. split; [reflexivity|]. intros x; cbn. lia.
  - destruct Ha as [Hf He]. unfold ctor_equalities_101, ensures.
    rewrite forallb_in.
    2:{ intros e Hin. apply Z.eqb_eq. destruct (Hf e Hin) as [-> | ->]; reflexivity. }
    rewrite (proj2 (Z.eqb_eq _ _) He). eexists. split; [reflexivity|]. intros x; cbn. lia.
  - unfold ctor_inequalities_01, ensures.
    rewrite forallb_in by (intros e Hin; apply Z.eqb_eq; apply (Ha e Hin)).
    pose proof (lhs_nonneg_range x0 _ Ha) as R0.
    destruct (Z.eqb_spec (m_min c) (m_max c)) as [E|E]; cbn [fst snd].
    + rewrite (proj2 (Z.leb_le _ _)) by lia. eexists. split; [reflexivity|]. intros x; cbn. lia.
    + rewrite (proj2 (Z.leb_le _ _)) by lia. eexists. split; [reflexivity|].
      intros x; cbn [fst snd]. pose proof (lhs_nonneg_range x _ Ha). lia.
  - unfold ctor_inequalities_101, ensures.
    rewrite forallb_in.
    2:{ intros e Hin. apply Z.eqb_eq. destruct (Ha e Hin) as [-> | ->]; reflexivity. }
    pose proof (lhs_101_range x0 _ Ha) as R0. pose proof (count_total (m_elements c)) as Ht.
    rewrite (proj2 (Z.eqb_eq _ _) Ht).
    destruct (Z.eqb_spec (m_min c) (m_max c)) as [E|E]; cbn [fst snd].
    + rewrite (proj2 (Z.leb_le _ _)) by lia. eexists. split; [reflexivity|]. intros x; cbn. lia.
    + rewrite (proj2 (Z.leb_le _ _)) by lia. eexists. split; [reflexivity|].
      intros x; cbn [fst snd]. pose proof (lhs_101_range x _ Ha). lia.
  - unfold ctor_inequalities_Z, ensures.
    rewrite forallb_in.
    2:{ intros e Hin. specialize (Ha e Hin). unfold factor_nonzero in Ha.
        destruct (Z.eqb_spec (f_factor e) 0); [contradiction|reflexivity]. }
    pose proof (lhs_Z_range x0 (m_elements c)) as R0.
    destruct (Z.eqb_spec (m_min c) (m_max c)) as [E|E]; cbn [fst snd].
    + rewrite (proj2 (Z.leb_le _ _)) by lia. eexists. split; [reflexivity|]. intros x; cbn. lia.
    + rewrite (proj2 (Z.leb_le _ _)) by lia. eexists. split; [reflexivity|].
      intros x; cbn [fst snd]. pose proof (lhs_Z_range x (m_elements c)). lia.
  - unfold ctor_random, ensures.
    rewrite forallb_in.
    2:{ intros e Hin. apply Z.eqb_eq. destruct (Ha e Hin) as [-> | ->]; reflexivity. }
    pose proof (lhs_101_range x0 _ Ha) as R0.
    destruct (Z.eqb_spec (m_min c) (m_max c)) as [E|E]; cbn [fst snd].
    + rewrite (proj2 (Z.leb_le _ _)) by lia. eexists. split; [reflexivity|]. intros x; cbn. lia.
    + rewrite (proj2 (Z.leb_le _ _)) by lia. eexists. split; [reflexivity|].
      intros x; cbn [fst snd]. pose proof (lhs_101_range x _ Ha). lia.
Qed.

Lemma ctor_rows_ok s l x0 :
  (forall c, In c l -> accepts s c) -> sat_merged x0 l ->
  exists bs, solver_ctor s l = Ok bs /\
    Forall2 (fun b c => forall x, fst b <= lhs x (m_elements c) <= snd b <->
                                  m_min c <= lhs x (m_elements c) <= m_max c) bs l.
Proof.
  unfold solver_ctor. induction l as [|c l IH]; intros Ha Hs; cbn [ctor_rows].
  - exists []. split; [reflexivity|constructor].
  - destruct (ctor_row_ok s c x0) as (b & Hb & Hm).
    { apply Ha; left; reflexivity. }
    { apply Hs; left; reflexivity. }
    destruct IH as (bs & Hbs & HF).
    { intros z Hz. apply Ha; right; assumption. }
    { intros z Hz. apply Hs; right; assumption. }
    rewrite Hb. cbn [obind]. rewrite Hbs. cbn [obind]. eexists. split; [reflexivity|]. constructor; assumption.
Qed.

(** The same when each row is satisfied by an assignment of its own. *)
Lemma ctor_rows_each s l :
  (forall c, In c l -> accepts s c) -> (forall c, In c l -> exists x, m_min c <= lhs x (m_elements c) <= m_max c) ->
  exists bs, solver_ctor s l = Ok bs /\
    Forall2 (fun b c => forall x, fst b <= lhs x (m_elements c) <= snd b <->
                                  m_min c <= lhs x (m_elements c) <= m_max c) bs l.
Proof.
  unfold solver_ctor. induction l as [|c l IH]; intros Ha Hs; cbn [ctor_rows].
  - exists []. split; [reflexivity|constructor].
  - destruct (Hs c (or_introl eq_refl)) as [x0 Hx0].
    destruct (ctor_row_ok s c x0 (Ha c (or_introl eq_refl)) Hx0) as (b & Hb & Hm).
    destruct IH as (bs & Hbs & HF).
    { intros z Hz. apply Ha; right; assumption. }
    { intros z Hz. apply Hs; right; assumption. }
    rewrite Hb. cbn [obind]. rewrite Hbs. cbn [obind]. eexists. split; [reflexivity|]. constructor; assumption.
Qed.

(** ** Coefficients and equality bounds of the merged constraints *)
(** Every merged constraint has (a permutation of) the left-hand side of a constraint of
    the problem. *)
Definition from_pb' (pb : problem) (m : merged) : Prop :=
  exists c, In c (all_constraints pb) /\ Permutation (m_elements m) (c_elements c).

Section WithSort.
Variable std_sort : forall A : Type, (A -> A -> bool) -> list A -> list A.
Variable ddiv : Z -> Z -> Z.
Hypothesis Hperm : permutes std_sort.

(** A property of a merged constraint that does not depend on id or element order. *)
Definition mstable (Q : merged -> Prop) : Prop :=
  forall a b, msame a b -> Q b -> Q a.

Lemma Forall2_msame_all (Q : merged -> Prop) a b :
  mstable Q -> Forall2 msame a b -> (forall m, In m b -> Q m) -> forall m, In m a -> Q m.
Proof.
  intros HQ H. induction H as [|p q a b Hpq HF IH]; intros Hb m Hm; [destruct Hm|].
  destruct Hm as [<-|Hm].
  - apply (HQ p q Hpq). apply Hb; left; reflexivity.
  - apply IH; [|assumption]. intros z Hz. apply Hb; right; assumption.
Qed.

Lemma make_merged_all (Q : merged -> Prop) po pb cs :
  mstable Q ->
  (forall o1 o2 o3 ret, fill3 o1 o2 o3 pb = Ok ret -> forall m, In m ret -> Q m) ->
  make_merged std_sort ddiv po pb = Ok cs -> forall m, In m cs -> Q m.
Proof.
  intros HQ Hf H.
  assert (Hun : forall ret, make_unsorted std_sort pb = Ok ret -> forall m, In m ret -> Q m).
  { intros ret. unfold make_unsorted. destruct (fill3 _ _ _ pb) as [r| |] eqn:E; cbn [obind]; try discriminate.
    intros Hr m Hm. inversion Hr; subst ret. apply (Hf _ _ _ _ E).
    eapply Permutation_in; [apply Hperm|exact Hm]. }
  assert (Him : forall ret, (forall m, In m ret -> Q m) -> forall m, In m (improve_memory_usage std_sort ret) -> Q m).
  { intros ret Hr. apply (Forall2_msame_all Q _ ret HQ); [|assumption]. apply sort_elements_same; assumption. }
  assert (Hor : forall o1 o2 o3, (let! r := fill3 o1 o2 o3 pb in Ok (improve_memory_usage std_sort r)) = Ok cs ->
            forall m, In m cs -> Q m).
  { intros o1 o2 o3. destruct (fill3 o1 o2 o3 pb) as [r| |] eqn:E; cbn [obind]; try discriminate.
    intros Hr. inversion Hr; subst cs. apply Him. exact (Hf _ _ _ _ E). }
  assert (Hsp : make_special std_sort ddiv po pb = Ok cs -> forall m, In m cs -> Q m).
  { unfold make_special. destruct (make_unsorted std_sort pb) as [csts| |]; cbn [obind]; try discriminate.
    specialize (Hun csts eq_refl).
    destruct (count_degrees csts _) as [degree|]; cbn [of_opt obind]; [|discriminate].
    destruct (fill_costs ddiv degree _ _) as [cost|]; cbn [of_opt obind]; [|discriminate].
    destruct (ratios cost csts 0) as [r|]; cbn [of_opt obind]; [|discriminate].
    match goal with |- context [set_ids csts ?r'] => destruct (set_ids csts r') as [csts'|] eqn:Es end;
      cbn [of_opt obind]; [|discriminate].
    intros Hr. inversion Hr; subst cs.
    apply (Forall2_msame_all Q _ _ HQ (sort_elements_same std_sort Hperm _ _)).
    intros m Hm. apply (Permutation_in m (Hperm _ by_id csts')) in Hm. revert m Hm.
    apply (Forall2_msame_all Q _ _ HQ (set_ids_spec _ _ _ Es)). exact Hun. }
  destruct po; cbn [make_merged make_ordered] in H; try exact (Hsp H); try exact (Hor _ _ _ H).
  - exact (Hun cs H).
  - destruct (make_unsorted std_sort pb) as [r| |]; cbn [obind] in H; try discriminate.
    inversion H; subst cs. apply Him. exact (Hun r eq_refl).
Qed.

Lemma merged_factors (P : Z -> Prop) po pb cs :
  all_factors P pb -> make_merged std_sort ddiv po pb = Ok cs ->
  forall m, In m cs -> row_factors P m.
Proof.
  intros HP. apply make_merged_all.
  - intros a b (Hab & _ & _) Hb e He. apply Hb. eapply Permutation_in; eassumption.
  - intros o1 o2 o3 ret H m Hm e He. destruct (fill3_from _ _ _ _ _ H m Hm) as (c & Hc & Heq).
    rewrite Heq in He. exact (HP c e Hc He).
Qed.

Lemma fill_equal_minmax l : forall s s',
  (forall m, In m (snd s) -> m_min m = m_max m) ->
  fill_list fill_equal s l = Ok s' -> forall m, In m (snd s') -> m_min m = m_max m.
Proof.
  induction l as [|e l IH]; intros s s' Hs H; cbn [fill_list] in H.
  - inversion H; subst; assumption.
  - destruct (fill_equal s e) as [s1| |] eqn:E; cbn [obind] in H; try discriminate.
    apply (IH s1 s'); [|assumption]. clear IH H. destruct s as [c ret]. cbn in E. cbn [snd] in Hs.
    destruct (cache_find c (c_elements e)) as [i|].
    + destruct (nth_error ret i) as [z|]; cbn in E; [|discriminate].
      destruct ((m_min z <=? c_value e) && (c_value e <=? m_max z)); [|discriminate].
      destruct (list_upd ret i _) as [ret'|] eqn:Eu; cbn in E; [|discriminate].
      inversion E; subst s1. cbn [snd]. intros m Hm. apply In_nth_error in Hm. destruct Hm as [j Hj].
      rewrite (list_upd_nth _ _ _ _ j Eu) in Hj. destruct (Nat.eqb j i).
      * inversion Hj; reflexivity.
      * apply Hs. eapply nth_error_In; eassumption.
    + inversion E; subst s1. cbn [snd]. intros m Hm. apply in_app_or in Hm.
      destruct Hm as [Hm|[<-|[]]]; [auto|reflexivity].
Qed.

Lemma fill3_equalities o1 o2 o3 pb ret :
  only_equalities pb -> fill3 o1 o2 o3 pb = Ok ret -> forall m, In m ret -> m_min m = m_max m.
Proof.
  intros [Hg Hl] H m Hm. unfold fill3 in H.
  assert (Hstep : forall op s s', (forall m, In m (snd s) -> m_min m = m_max m) ->
            fill_merged op pb s = Ok s' -> forall m, In m (snd s') -> m_min m = m_max m).
  { intros op s s' Hs HH. destruct op; cbn [fill_merged] in HH.
    - eapply fill_equal_minmax; eassumption.
    - rewrite Hg in HH. cbn in HH. inversion HH; subst; assumption.
    - rewrite Hl in HH. cbn in HH. inversion HH; subst; assumption. }
  destruct (fill_merged o1 pb ([], [])) as [s1| |] eqn:E1; cbn [obind] in H; try discriminate.
  destruct (fill_merged o2 pb s1) as [s2| |] eqn:E2; cbn [obind] in H; try discriminate.
  destruct (fill_merged o3 pb s2) as [s3| |] eqn:E3; cbn [obind] in H; try discriminate.
  inversion H; subst ret.
  apply (Hstep _ _ _ (Hstep _ _ _ (Hstep o1 ([], []) s1 ltac:(intros z []) E1) E2) E3 m Hm).
Qed.

Lemma merged_equalities po pb cs :
  only_equalities pb -> make_merged std_sort ddiv po pb = Ok cs ->
  forall m, In m cs -> m_min m = m_max m.
Proof.
  intros Ho. apply make_merged_all.
  - intros a b (_ & H1 & H2) Hb. congruence.
  - intros o1 o2 o3 ret H. exact (fill3_equalities _ _ _ _ _ Ho H).
Qed.

(** Whole pipeline: classification, merging, constructor. *)
Lemma merged_accepted po pb cs :
  all_factors factor_nonzero pb -> make_merged std_sort ddiv po pb = Ok cs ->
  forall c, In c cs -> accepts (dispatch (which_problem_type pb)) c.
Proof.
  intros Hnz Hm. pose proof (which_fits pb Hnz) as [Hcoef Hop].
  intros c Hc. destruct (which_problem_type pb); cbn [dispatch accepts class_coefficients class_operators] in *.
  - split; [exact (merged_factors _ _ _ _ Hcoef Hm c Hc)|exact (merged_equalities _ _ _ Hop Hm c Hc)].
  - split; [exact (merged_factors _ _ _ _ Hcoef Hm c Hc)|exact (merged_equalities _ _ _ Hop Hm c Hc)].
  - exact (merged_factors _ _ _ _ Hnz Hm c Hc).
  - exact (merged_factors _ _ _ _ Hcoef Hm c Hc).
  - exact (merged_factors _ _ _ _ Hcoef Hm c Hc).
  - exact (merged_factors _ _ _ _ Hnz Hm c Hc).
Qed.
Lemma constructor_accepts po pb cs x0 :
  all_factors factor_nonzero pb -> feasible x0 pb -> fits_int x0 pb ->
  make_merged std_sort ddiv po pb = Ok cs ->
  exists bs, solver_ctor (dispatch (which_problem_type pb)) cs = Ok bs /\
    Forall2 (fun b c => forall x, fst b <= lhs x (m_elements c) <= snd b <->
                                  m_min c <= lhs x (m_elements c) <= m_max c) bs cs.
Proof.
  intros Hnz Hfe Hfi Hm. apply ctor_rows_ok with (x0 := x0).
  - exact (merged_accepted po pb cs Hnz Hm).
  - apply (merged_meaning std_sort ddiv Hperm po pb cs x0 Hm Hfi). assumption.
Qed.
(** A problem may have no solution although each row has one. *)
Lemma constructor_accepts_each po pb cs :
  all_factors factor_nonzero pb -> make_merged std_sort ddiv po pb = Ok cs ->
  (forall c, In c cs -> exists x, m_min c <= lhs x (m_elements c) <= m_max c) ->
  exists bs, solver_ctor (dispatch (which_problem_type pb)) cs = Ok bs.
Proof.
  intros Hnz Hm Hs. destruct (ctor_rows_each (dispatch (which_problem_type pb)) cs (merged_accepted po pb cs Hnz Hm) Hs) as (bs & H & _). eauto.
Qed.
End WithSort.
