(** Proofs for the observers. *)
From Coq Require Import String QArith Qround Qminmax Lqa Setoid Morphisms.
From Verif Require Import Base Problem_model Matrix_model Matrix_spec Matrix_proofs Params_model ResultIO_model Validate_model Writer_model Observer_model Observer_spec.
Open Scope string_scope.
Open Scope list_scope.
Open Scope Z_scope.

(** ** Colours *)
Lemma clamp01_range q : (0 <= clamp01 q <= 1)%Q.
Proof.
  unfold clamp01. split; [apply Q.le_max_l|]. apply Q.max_lub; [discriminate|]. apply Q.le_min_l.
Qed.
Lemma clamp01_id q : (0 <= q <= 1)%Q -> (clamp01 q == q)%Q.
Proof. intros [H1 H2]. unfold clamp01. rewrite Q.min_r by assumption. apply Q.max_r. assumption. Qed.
Lemma clamp01_low q : (q <= 0)%Q -> (clamp01 q == 0)%Q.
Proof. intros H. unfold clamp01. apply Q.max_l. eapply Qle_trans; [apply Q.le_min_r|exact H]. Qed.
Lemma clamp01_high q : (1 <= q)%Q -> (clamp01 q == 1)%Q.
Proof. intros H. unfold clamp01. rewrite Q.min_l by assumption. apply Q.max_r. discriminate. Qed.
Lemma clamp01_mono a b : (a <= b)%Q -> (clamp01 a <= clamp01 b)%Q.
Proof. intros H. unfold clamp01. apply Q.max_le_compat_l. apply Q.min_le_compat_l. exact H. Qed.
Global Instance clamp01_proper : Proper (Qeq ==> Qeq) clamp01.
Proof. intros a b H. unfold clamp01. rewrite H. reflexivity. Qed.
Lemma level_range q : byte (level q).
Proof.
  unfold level, byte. destruct (clamp01_range q) as [H1 H2]. split.
  - apply (Qfloor_resp_le 0). lra.
  - apply (Qfloor_resp_le _ 255). lra.
Qed.
Lemma level_mono a b : (a <= b)%Q -> level a <= level b.
Proof. intros H. apply Qfloor_resp_le. pose proof (clamp01_mono a b H). lra. Qed.
Lemma level_eq a b : (a == b)%Q -> level a = level b.
Proof. intros H. unfold level. apply Qfloor_comp. rewrite H. reflexivity. Qed.
Lemma level_low q : (q <= 0)%Q -> level q = 0.
Proof. intros H. unfold level. rewrite (clamp01_low q H). reflexivity. Qed.
Lemma level_high q : (1 <= q)%Q -> level q = 255.
Proof. intros H. unfold level. rewrite (clamp01_high q H). reflexivity. Qed.
Lemma to_byte_level q r : (0 <= q <= 1)%Q -> (q == r)%Q -> to_byte (q * 255) = Some (level r).
Proof.
  intros Hq Hr. unfold to_byte. assert (H0 : Qle_bool 0 (q * 255) = true) by (apply Qle_bool_iff; lra). rewrite H0.
  assert (E : Qfloor (q * 255) = level r). { unfold level. apply Qfloor_comp. rewrite <- Hr, (clamp01_id q Hq). lra. }
  rewrite E. destruct (level_range r) as [L1 L2]. rewrite (proj2 (Z.leb_le _ _) L1), (proj2 (Z.leb_le _ _) L2). reflexivity.
Qed.

Lemma colour_ok lo hi v : (lo < hi)%Q -> (lo <= v)%Q -> (v <= hi)%Q -> colour lo hi v = Some (shade_at ((v - lo) / (hi - lo))).
Proof.
  intros Hlh Hl Hh. set (t := ((v - lo) / (hi - lo))%Q). set (dv := (hi - lo)%Q).
  assert (Hdv : (0 < dv)%Q) by (unfold dv; lra).
  assert (Hv : (v == lo + t * dv)%Q). { unfold t. fold dv. field. lra. }
  assert (Hcmp : forall a, (lo + a * dv <= v)%Q <-> (a <= t)%Q).
  { intros a. rewrite Hv. rewrite Qplus_le_r. split; intros H; [|apply Qmult_le_compat_r; lra]. apply Qmult_lt_0_le_reg_r with dv; assumption. }
  assert (Ht0 : (0 <= t)%Q) by (apply Hcmp; lra).
  assert (Ht1 : (t <= 1)%Q).
  { apply Qnot_lt_le. intros H. assert (lo + t * dv <= hi)%Q by (rewrite <- Hv; exact Hh). assert (1 * dv < t * dv)%Q by (apply Qmult_lt_compat_r; assumption). unfold dv in *. lra. }
  assert (Hb : forall a, Qle_bool (lo + a * dv) v = Qle_bool a t).
  { intros a. destruct (Qle_bool a t) eqn:E; [apply Qle_bool_iff, Hcmp, Qle_bool_iff; exact E|].
    destruct (Qle_bool (lo + a * dv) v) eqn:E2; [|reflexivity]. apply Qle_bool_iff, Hcmp, Qle_bool_iff in E2. congruence. }
  assert (Hnot : forall a, Qle_bool a t = false -> (t < a)%Q).
  { intros a Ha. apply Qnot_le_lt. intros H. apply Qle_bool_iff in H. congruence. }
  unfold colour. cbv zeta. fold dv. rewrite !Hb. unfold shade_at.
  assert (D1 : (4 * (v - lo) / dv == 4 * t)%Q) by (unfold t; fold dv; field; lra).
  assert (D2 : (1 + 4 * (lo + (1 # 4) * dv - v) / dv == 2 - 4 * t)%Q) by (rewrite Hv; field; lra).
  assert (D3 : (4 * (v - lo - (1 # 2) * dv) / dv == 4 * t - 2)%Q) by (rewrite Hv; field; lra).
  assert (D4 : (1 + 4 * (lo + (3 # 4) * dv - v) / dv == 4 - 4 * t)%Q) by (rewrite Hv; field; lra).
  assert (L0 : forall q, (q <= 0)%Q -> to_byte (0 * 255) = Some (level q)).
  { intros q Hq. rewrite (to_byte_level 0 0) by (try reflexivity; lra). f_equal. rewrite !level_low; [reflexivity|exact Hq|lra]. }
  assert (L1 : forall q, (1 <= q)%Q -> to_byte (1 * 255) = Some (level q)).
  { intros q Hq. rewrite (to_byte_level 1 1) by (try reflexivity; lra). f_equal. rewrite !level_high; [reflexivity|exact Hq|lra]. }
  destruct (Qle_bool (1 # 4) t) eqn:E1; cbn [negb].
  2: { apply Hnot in E1. rewrite (L0 (4 * t - 2)%Q) by lra. rewrite (L1 (2 - 4 * t)%Q) by lra.
       rewrite (to_byte_level _ (Qmin (4 * t) (4 - 4 * t))); [reflexivity| |]; rewrite D1; [lra|]. symmetry. apply Q.min_l. lra. }
  apply Qle_bool_iff in E1. destruct (Qle_bool (1 # 2) t) eqn:E2; cbn [negb].
  2: { apply Hnot in E2. rewrite (L0 (4 * t - 2)%Q) by lra. rewrite (L1 (Qmin (4 * t) (4 - 4 * t))) by (rewrite Q.min_l by lra; lra).
       rewrite (to_byte_level _ (2 - 4 * t)); [reflexivity| |]; rewrite D2; [lra|reflexivity]. }
  apply Qle_bool_iff in E2. destruct (Qle_bool (3 # 4) t) eqn:E3; cbn [negb].
  2: { apply Hnot in E3. rewrite (L0 (2 - 4 * t)%Q) by lra. rewrite (L1 (Qmin (4 * t) (4 - 4 * t))) by (rewrite Q.min_r by lra; lra).
       rewrite (to_byte_level _ (4 * t - 2)); [reflexivity| |]; rewrite D3; [lra|reflexivity]. }
  apply Qle_bool_iff in E3. rewrite (L0 (2 - 4 * t)%Q) by lra. rewrite (L1 (4 * t - 2)%Q) by lra.
  rewrite (to_byte_level _ (Qmin (4 * t) (4 - 4 * t))); [reflexivity| |]; rewrite D4; [lra|]. symmetry. apply Q.min_r. lra.
Qed.

(** The value between the bounds. *)
Definition bounded (lo hi : Q) (v : dbl) : Q :=
  match v with
  | NegInf => lo | PosInf => hi | NaN => lo
  | Fin q => if negb (Qle_bool lo q) then lo else if negb (Qle_bool q hi) then hi else q
  end.
Lemma bounded_range lo hi v : (lo < hi)%Q -> (lo <= bounded lo hi v <= hi)%Q.
Proof.
  intros H. destruct v as [| | |q]; cbn; try lra. destruct (Qle_bool lo q) eqn:E1; cbn [negb]; [|lra]. apply Qle_bool_iff in E1.
  destruct (Qle_bool q hi) eqn:E2; cbn [negb]; [|lra]. apply Qle_bool_iff in E2. lra.
Qed.
Lemma Qle_bool_false a b : Qle_bool a b = false -> (b < a)%Q.
Proof. intros H. apply Qnot_le_lt. intros G. apply Qle_bool_iff in G. congruence. Qed.
Lemma bounded_mono lo hi a b : (lo < hi)%Q -> at_most a b -> (bounded lo hi a <= bounded lo hi b)%Q.
Proof.
  intros H Hab. pose proof (bounded_range lo hi a H) as Ra. pose proof (bounded_range lo hi b H) as Rb.
  destruct a as [| | |x], b as [| | |y]; cbn [at_most] in Hab; try contradiction; cbn [bounded] in *; try lra.
  destruct (Qle_bool lo x) eqn:E1, (Qle_bool lo y) eqn:E2, (Qle_bool x hi) eqn:E3, (Qle_bool y hi) eqn:E4; cbn [negb] in *;
    rewrite ?Qle_bool_iff in *; repeat match goal with E : Qle_bool _ _ = false |- _ => apply Qle_bool_false in E end; lra.
Qed.
Lemma colormap_ok lo hi v : (lo < hi)%Q -> number v -> colormap lo hi v = Some (shade_at ((bounded lo hi v - lo) / (hi - lo))).
Proof.
  intros H Hv. unfold colormap. destruct (Qle_bool hi lo) eqn:E; cbn [negb]; [apply Qle_bool_iff in E; lra|].
  pose proof (bounded_range lo hi v H) as [B1 B2].
  destruct v as [| | |q]; [contradiction|apply colour_ok; lra|apply colour_ok; lra|]. apply colour_ok; assumption.
Qed.

(** ** Pixels *)
Lemma upd_nth {A} (l : list A) i a l' d k : list_upd l i a = Some l' -> nth k l' d = if Nat.eqb k i then a else nth k l d.
Proof.
  intros H. pose proof (list_upd_nth l i a l' k H) as E. pose proof (list_upd_lt _ _ _ _ H) as L.
  destruct (Nat.eqb_spec k i) as [->|N].
  - apply nth_error_nth. rewrite E. destruct (Nat.eq_dec i i); [reflexivity|congruence].
  - destruct (Nat.eq_dec k i); [contradiction|]. destruct (nth_error l k) as [x|] eqn:G.
    + rewrite (nth_error_nth _ _ d E), (nth_error_nth _ _ d G). reflexivity.
    + rewrite !nth_overflow; [reflexivity|apply nth_error_None; assumption|apply nth_error_None; assumption].
Qed.
Lemma upd_forall {A} (Q : A -> Prop) (l : list A) i a l' : list_upd l i a = Some l' -> Q a -> Forall Q l -> Forall Q l'.
Proof.
  revert i l'. induction l as [|x l IH]; intros i l' H Ha Hl; [destruct i; discriminate|]. inversion Hl as [|? ? Hx Hl']; subst.
  destruct i as [|i]; cbn in H; [injection H as <-; constructor; assumption|].
  destruct (list_upd l i a) as [t|] eqn:E; [|discriminate]. injection H as <-. constructor; [exact Hx|]. apply (IH i); assumption.
Qed.
Definition byte_rgb (c : rgb) : Prop := byte (red c) /\ byte (green c) /\ byte (blue c).
Lemma colormap_bytes lo hi v c : (lo < hi)%Q -> number v -> colormap lo hi v = Some c -> byte_rgb c.
Proof.
  intros H Hv E. rewrite (colormap_ok lo hi v H Hv) in E. injection E as <-. split; [|split]; apply level_range.
Qed.
Lemma set_pixel_ok off c buf : (off + 2 < length buf)%nat ->
  exists b, set_pixel off c buf = Some b /\ length b = length buf /\
    (forall i, nth i b 0 = if Nat.eqb i (off + 2) then blue c else if Nat.eqb i (off + 1) then green c else if Nat.eqb i off then red c else nth i buf 0) /\
    (byte_rgb c -> Forall byte buf -> Forall byte b).
Proof.
  intros H. unfold set_pixel.
  destruct (list_upd_some buf off (red c)) as [b1 E1]; [lia|]. rewrite E1. cbn [bind]. pose proof (list_upd_length _ _ _ _ E1) as L1.
  destruct (list_upd_some b1 (off + 1) (green c)) as [b2 E2]; [lia|]. rewrite E2. cbn [bind]. pose proof (list_upd_length _ _ _ _ E2) as L2.
  destruct (list_upd_some b2 (off + 2) (blue c)) as [b3 E3]; [lia|]. rewrite E3. pose proof (list_upd_length _ _ _ _ E3) as L3.
  exists b3. split; [reflexivity|]. split; [lia|]. split.
  - intros i. rewrite (upd_nth _ _ _ _ 0 i E3), (upd_nth _ _ _ _ 0 i E2), (upd_nth _ _ _ _ 0 i E1). reflexivity.
  - intros (R & G & B) F. apply (upd_forall byte _ _ _ _ E3 B), (upd_forall byte _ _ _ _ E2 G), (upd_forall byte _ _ _ _ E1 R F).
Qed.
Lemma cell_inj (n i j k c : nat) : (j < n -> c < n -> i * n + j = k * n + c -> i = k /\ j = c)%nat.
Proof. intros Hj Hc E. assert (i = k) by nia. split; [assumption|]. subst. lia. Qed.
Lemma set_pixel_cell n k c r buf : (c < n)%nat -> (3 * (k * n + c) + 2 < length buf)%nat ->
  exists b, set_pixel (3 * (k * n + c)) r buf = Some b /\ length b = length buf /\ pixel b n k c = bytes_of r /\
    (forall i j, (j < n)%nat -> (i <> k \/ j <> c) -> pixel b n i j = pixel buf n i j) /\
    (byte_rgb r -> Forall byte buf -> Forall byte b).
Proof.
  intros Hc H. destruct (set_pixel_ok _ r buf H) as (b & E & L & N & F). exists b. split; [exact E|]. split; [exact L|]. split; [|split; [|exact F]].
  - unfold pixel, bytes_of. cbv zeta. rewrite !N, !Nat.eqb_refl.
    replace (Nat.eqb (3 * (k * n + c)) (3 * (k * n + c) + 2)) with false by (symmetry; apply Nat.eqb_neq; lia).
    replace (Nat.eqb (3 * (k * n + c)) (3 * (k * n + c) + 1)) with false by (symmetry; apply Nat.eqb_neq; lia).
    replace (Nat.eqb (3 * (k * n + c) + 1) (3 * (k * n + c) + 2)) with false by (symmetry; apply Nat.eqb_neq; lia). reflexivity.
  - intros i j Hj Hd. assert (Hne : (i * n + j <> k * n + c)%nat). { intros G. destruct (cell_inj n i j k c Hj Hc G). lia. }
    assert (G : forall a, (a < 3)%nat -> nth (3 * (i * n + j) + a) b 0 = nth (3 * (i * n + j) + a) buf 0).
    { intros a Ha. rewrite N. repeat match goal with |- context [Nat.eqb ?x ?y] => replace (Nat.eqb x y) with false by (symmetry; apply Nat.eqb_neq; lia) end. reflexivity. }
    unfold pixel. cbv zeta. rewrite <- (G 1%nat), <- (G 2%nat) by lia. pose proof (G 0%nat ltac:(lia)) as G0. rewrite Nat.add_0_r in G0. rewrite G0. reflexivity.
Qed.
Lemma pixel_at_ok m n k c : (k < m)%nat -> (c < n)%nat ->
  exists off, pixel_at (Z.of_nat m) (Z.of_nat n) (Z.of_nat k) (Z.of_nat c) = Some off /\ Z.to_nat off = (3 * (k * n + c))%nat.
Proof.
  intros Hk Hc. unfold pixel_at. rewrite (proj2 (Z.ltb_lt _ _)) by lia. rewrite (proj2 (Z.ltb_lt (Z.of_nat c) _)) by lia. cbn [andb].
  eexists. split; [reflexivity|]. lia.
Qed.
Lemma cell_in_buffer m n k c : (k < m -> c < n -> 3 * (k * n + c) + 2 < 3 * (m * n))%nat.
Proof. intros Hk Hc. assert (k * n + c < m * n)%nat by nia. lia. Qed.
(** The cells of the list drawn on line [k], the others as before. *)
Lemma draw_row_ok m n k P : (k < m)%nat -> Forall number P -> forall l buf,
  length buf = (3 * (m * n))%nat -> NoDup (map snd l) -> (forall v c, In (v, c) l -> (v < length P)%nat /\ (c < n)%nat) ->
  exists b, draw_row (Z.of_nat m) (Z.of_nat n) k P l buf = Some b /\ length b = length buf /\
    (forall v c, In (v, c) l -> exists x r, nth_error P v = Some x /\ colormap (-1) 1 x = Some r /\ pixel b n k c = bytes_of r) /\
    (forall i j, (j < n)%nat -> (i <> k \/ ~ In j (map snd l)) -> pixel b n i j = pixel buf n i j) /\
    (Forall byte buf -> Forall byte b).
Proof.
  intros Hk HP. induction l as [|[v c] l IH]; intros buf Hb Hnd Hin.
  - exists buf. split; [reflexivity|]. split; [reflexivity|]. split; [intros v c []|]. split; [reflexivity|trivial].
  - cbn [map snd] in Hnd. inversion Hnd as [|? ? Hnin Hnd']; subst. destruct (Hin v c (or_introl eq_refl)) as [Hv Hc].
    cbn [draw_row]. destruct (pixel_at_ok m n k c Hk Hc) as (off & Eo & Ho). rewrite Eo. cbn [bind].
    destruct (nth_error P v) as [x|] eqn:Ex; [|apply nth_error_None in Ex; lia]. cbn [bind].
    assert (Nx : number x) by (rewrite Forall_forall in HP; apply HP; apply nth_error_In with v; exact Ex).
    assert (H11 : (-1 < 1)%Q) by reflexivity. rewrite (colormap_ok (-1) 1 x H11 Nx). cbn [bind]. set (r := shade_at _). rewrite Ho.
    destruct (set_pixel_cell n k c r buf Hc) as (b1 & E1 & L1 & P1 & U1 & F1); [rewrite Hb; apply cell_in_buffer; assumption|]. rewrite E1. cbn [bind].
    destruct (IH b1) as (b & E & L & D & U & F); [congruence|exact Hnd'|intros; apply Hin; right; assumption|].
    exists b. split; [exact E|]. split; [congruence|]. split; [|split].
    + intros v' c' [Eq|Hl]; [|apply D; exact Hl]. injection Eq as <- <-. exists x, r. split; [exact Ex|]. split; [exact (colormap_ok (-1) 1 x H11 Nx)|].
      rewrite U; [exact P1|exact Hc|right; exact Hnin].
    + intros i j Hj Hd. rewrite U; [apply U1; [exact Hj|]|exact Hj|]; destruct Hd as [Hd|Hd]; [left; exact Hd|right; intros ->; apply Hd; left; reflexivity|left; exact Hd|right; intros G; apply Hd; right; exact G].
    + intros Fb. apply F, F1; [|exact Fb]. apply (colormap_bytes (-1) 1 x); [reflexivity|exact Nx|exact (colormap_ok (-1) 1 x H11 Nx)].
Qed.
Lemma draw_rows_ok m n ap P (row : nat -> list (nat * nat)) : Forall number P ->
  (forall k, (k < m)%nat -> mx_row ap k = Some (row k) /\ NoDup (map snd (row k)) /\ forall v c, In (v, c) (row k) -> (v < length P)%nat /\ (c < n)%nat) ->
  forall todo k buf, (k + todo = m)%nat -> length buf = (3 * (m * n))%nat ->
  exists b, draw_rows (Z.of_nat m) (Z.of_nat n) ap P todo k buf = Some b /\ length b = length buf /\
    (forall i v c, (k <= i < m)%nat -> In (v, c) (row i) -> exists x r, nth_error P v = Some x /\ colormap (-1) 1 x = Some r /\ pixel b n i c = bytes_of r) /\
    (forall i j, (j < n)%nat -> ((i < k)%nat \/ ~ In j (map snd (row i)) \/ (m <= i)%nat) -> pixel b n i j = pixel buf n i j) /\
    (Forall byte buf -> Forall byte b).
Proof.
  intros HP Hrow. induction todo as [|todo IH]; intros k buf Hk Hb.
  - exists buf. split; [reflexivity|]. split; [reflexivity|]. split; [intros; lia|]. split; [reflexivity|trivial].
  - cbn [draw_rows]. destruct (Hrow k) as (Er & Hnd & Hin); [lia|]. rewrite Er. cbn [bind].
    destruct (draw_row_ok m n k P ltac:(lia) HP (row k) buf Hb Hnd Hin) as (b1 & E1 & L1 & D1 & U1 & F1). rewrite E1. cbn [bind].
    destruct (IH (S k) b1) as (b & E & L & D & U & F); [lia|congruence|].
    exists b. split; [exact E|]. split; [congruence|]. split; [|split].
    + intros i v c Hi Hc. destruct (Nat.eq_dec i k) as [->|N]; [|apply D; [lia|exact Hc]].
      destruct (D1 v c Hc) as (x & r & H1 & H2 & H3). exists x, r. split; [exact H1|]. split; [exact H2|]. rewrite U; [exact H3|apply (Hin v c Hc)|left; lia].
    + intros i j Hj Hd. rewrite U; [apply U1; [exact Hj|]|exact Hj|].
      * destruct (Nat.eq_dec i k) as [->|N]; [|left; exact N]. right. destruct Hd as [Hd|[Hd|Hd]]; [lia|exact Hd|lia].
      * destruct Hd as [Hd|[Hd|Hd]]; [left; lia|right; left; exact Hd|right; right; lia].
    + intros Fb. apply F, F1, Fb.
Qed.
Lemma pixel_repeat k n i j : pixel (repeat 0 k) n i j = black.
Proof. unfold pixel, black. cbv zeta. rewrite !nth_repeat. reflexivity. Qed.
Lemma wrap32_small z : 0 <= z < 2 ^ 32 -> wrap32 z = z.
Proof. intros H. unfold wrap32. apply Z.mod_small. exact H. Qed.
(** What the matrix gives for each row. *)
Lemma matrix_rows csts n ap : make_matrix csts n = Some ap -> (exists c, In c csts /\ c <> []) ->
  (forall c, In c csts -> NoDup (map f_var c) /\ forall e, In e c -> (f_var e < n)%nat) ->
  (0 < n)%nat /\ (0 < length csts)%nat /\
  exists row : nat -> list (nat * nat),
    (forall k, (k < length csts)%nat -> mx_row ap k = Some (row k) /\ NoDup (map snd (row k)) /\
       forall v c, In (v, c) (row k) -> (v < elements_before csts (length csts))%nat /\ (c < n)%nat) /\
    (forall k p v, element_at csts k p v -> (k < length csts)%nat /\ In ((elements_before csts k + p)%nat, v) (row k)) /\
    (forall k v, (k < length csts)%nat -> (forall p, ~ element_at csts k p v) -> ~ In v (map snd (row k))).
Proof.
  intros Hm Hne Hwf. set (m := length csts) in *.
  destruct Hne as (c0 & Hc0 & Hn0). assert (Hn : (0 < n)%nat). { destruct c0 as [|e0 c0]; [congruence|]. pose proof (proj2 (Hwf _ Hc0) e0 (or_introl eq_refl)). lia. }
  assert (Hm0 : (0 < m)%nat). { subst m. destruct csts; [contradiction|cbn; lia]. }
  split; [exact Hn|]. split; [exact Hm0|].
  assert (Hel : forall k c, nth_error csts k = Some c -> (elements_before csts k + length c <= elements_before csts m)%nat).
  { intros k c Hk. subst m. unfold elements_before. rewrite firstn_all.
    clear - Hk. revert k Hk. induction csts as [|a l IH]; intros [|k] H; try discriminate; cbn in *; [injection H as ->; lia|]. specialize (IH k H). lia. }
  set (row := fun k => match nth_error csts k with Some c => map (fun a => (ac_id a, ac_col a)) (accessors_row k c (elements_before csts k)) | None => [] end).
  assert (Hin : forall k c v j, nth_error csts k = Some c -> (In (v, j) (row k) <-> exists p e, nth_error c p = Some e /\ v = (elements_before csts k + p)%nat /\ j = f_var e)).
  { intros k c v j Hk. unfold row. rewrite Hk. rewrite in_map_iff. split.
    - intros (a & Ea & Ha). apply accessors_row_in in Ha. destruct Ha as (p & e & Hp & ->). cbn in Ea. injection Ea as <- <-. exists p, e. auto.
    - intros (p & e & Hp & -> & ->). exists (mk_access k (f_var e) (elements_before csts k + p)). split; [reflexivity|]. apply accessors_row_in. exists p, e. auto. }
  assert (Hsnd : forall k c id, map snd (map (fun a => (ac_id a, ac_col a)) (accessors_row k c id)) = map f_var c).
  { intros k c. induction c as [|e c IH]; intros id; [reflexivity|]. cbn [accessors_row map snd ac_col]. rewrite IH. reflexivity. }
  exists row. split; [|split].
  - intros k Hk. destruct (nth_error csts k) as [c|] eqn:Ec; [|apply nth_error_None in Ec; subst m; lia].
    pose proof (nth_error_In _ _ Ec) as Hc. split; [|split].
    + unfold row. rewrite Ec. apply (mx_row_ok csts n); try assumption; [intros; apply (proj2 (Hwf _ ltac:(eassumption))); assumption|exists c0; auto].
    + unfold row. rewrite Ec, Hsnd. apply (Hwf _ Hc).
    + intros v j Hvj. apply (Hin k c v j Ec) in Hvj. destruct Hvj as (p & e & Hp & -> & ->). split; [|apply (proj2 (Hwf _ Hc)), nth_error_In with p; exact Hp].
      specialize (Hel k c Ec). assert (p < length c)%nat by (apply nth_error_Some; congruence). lia.
  - intros k p v (c & e & Hk & Hp & <-). split; [subst m; apply nth_error_Some; congruence|]. apply (Hin k c _ _ Hk). exists p, e. auto.
  - intros k v Hk Hno G. apply in_map_iff in G. destruct G as ([w j] & Ej & G). cbn in Ej. subst j.
    destruct (nth_error csts k) as [c|] eqn:Ec; [|apply nth_error_None in Ec; subst m; lia].
    apply (Hin k c _ _ Ec) in G. destruct G as (p & e & Hp & _ & ->). apply (Hno p). exists c, e. auto.
Qed.
(** The image of the preferences. *)
Lemma P_image_ok csts n ap P : make_matrix csts n = Some ap -> (exists c, In c csts /\ c <> []) ->
  (forall c, In c csts -> NoDup (map f_var c) /\ forall e, In e c -> (f_var e < n)%nat) ->
  3 * Z.of_nat (length csts) * Z.of_nat n < 2 ^ 32 -> Forall number P -> (elements_before csts (length csts) <= length P)%nat ->
  exists img, P_image (Z.of_nat (length csts)) (Z.of_nat n) ap P = Some (Some (bytes_of_text (header (Z.of_nat n) (Z.of_nat (length csts))) ++ img)) /\
    length img = (3 * (length csts * n))%nat /\ Forall byte img /\
    (forall k p v, element_at csts k p v ->
       exists x r, nth_error P (elements_before csts k + p) = Some x /\ colormap (-1) 1 x = Some r /\ pixel img n k v = bytes_of r) /\
    (forall k v, (k < length csts)%nat -> (v < n)%nat -> (forall p, ~ element_at csts k p v) -> pixel img n k v = black).
Proof.
  intros Hm Hne Hwf H32 HP Hlen. destruct (matrix_rows csts n ap Hm Hne Hwf) as (Hn & Hm0 & row & Hrow & Hel & Hno). set (m := length csts) in *.
  destruct (draw_rows_ok m n ap P row HP) with (todo := m) (k := 0%nat) (buf := repeat 0 (3 * (m * n))) as (b & E & L & D & U & F).
  - intros k Hk. destruct (Hrow k Hk) as (H1 & H2 & H3). split; [exact H1|]. split; [exact H2|]. intros v c G. destruct (H3 v c G). lia.
  - lia.
  - apply repeat_length.
  - exists b. unfold P_image, has_array.
    assert (Hmn : 0 < Z.of_nat n * Z.of_nat m) by (apply Z.mul_pos_pos; lia).
    rewrite wrap32_small by lia. rewrite (proj2 (Z.ltb_lt _ _) Hmn). unfold array_size. rewrite wrap32_small by lia.
    replace (Z.to_nat (3 * Z.of_nat m * Z.of_nat n)) with (3 * (m * n))%nat by lia. rewrite Nat2Z.id, E. cbn [bind]. split; [reflexivity|].
    rewrite repeat_length in L. split; [exact L|]. split; [apply F, Forall_forall; intros x Hx; apply repeat_spec in Hx; subst x; unfold byte; lia|]. split.
    + intros k p v Hkp. destruct (Hel k p v Hkp) as [H1 H2]. apply D; [lia|exact H2].
    + intros k v Hk Hv Hn0. rewrite U; [apply pixel_repeat|exact Hv|]. right. left. apply Hno; assumption.
Qed.

(** ** The image of the multipliers *)
Definition tint (v : dbl) : rgb := shade_at ((bounded (-1) 1 v - (-1)) / (1 - (-1))).
Lemma tint_ok v : number v -> colormap (-1) 1 v = Some (tint v).
Proof. intros H. apply colormap_ok; [reflexivity|exact H]. Qed.
(** The line of an observation. *)
Definition pi_row (m : nat) (pi : list dbl) : list Z :=
  match nth_error pi (m - 1) with Some v => bytes_of (tint v) ++ repeat 0 (3 * (m - 1)) | None => [] end.
Lemma observe_pi_ok l : forall h t, length h = 3%nat -> Forall number l ->
  observe_pi l (Some (h ++ t)) = Some (Some (match nth_error l (length l - 1) with Some v => bytes_of (tint v) | None => h end ++ t)).
Proof.
  induction l as [|v l IH]; intros h t Hh Hl; [reflexivity|]. inversion Hl as [|? ? Hv Hl']; subst. cbn [observe_pi bind]. rewrite (tint_ok v Hv). cbn [bind].
  destruct h as [|x [|y [|z [|]]]]; try discriminate. change (set_pixel 0 (tint v) ([x; y; z] ++ t)) with (Some (bytes_of (tint v) ++ t)). cbn [bind].
  rewrite (IH (bytes_of (tint v)) t eq_refl Hl'). f_equal. f_equal. f_equal.
  destruct l as [|w l]; [reflexivity|]. cbn [length]. replace (S (S (length l)) - 1)%nat with (S (length l)) by lia. replace (S (length l) - 1)%nat with (length l) by lia. cbn [nth_error].
  destruct (nth_error (w :: l) (length l)) eqn:E; [reflexivity|]. apply nth_error_None in E. cbn in E. lia.
Qed.
(** The observer of [m] multipliers with the buffer [h] followed by black pixels, [left] lines to write and the bytes [f] written. *)
Definition pi_state (m : nat) (h : list Z) (f : list Z) (left : nat) : pnm_vector :=
  mk_pnm_vector (Some (h ++ repeat 0 (3 * (m - 1)))) f (Z.of_nat left) (Z.of_nat m) true.
Definition last_row (m : nat) (h : list Z) (l : list (list dbl)) : list Z :=
  match nth_error l (length l - 1) with Some pi => pi_row m pi | None => h ++ repeat 0 (3 * (m - 1)) end.
Lemma pi_observation_ok m h f left pi : (0 < m)%nat -> length h = 3%nat -> (m <= length pi)%nat -> Forall number pi ->
  exists h', length h' = 3%nat /\ h' ++ repeat 0 (3 * (m - 1)) = pi_row m pi /\
    pi_observation (pi_state m h f left) pi = Some (pi_state m h' (if Nat.eqb left 0 then f else f ++ pi_row m pi) (left - 1)).
Proof.
  intros Hm Hh Hl Hpi. unfold pi_observation. cbn [pv_width pi_state pv_buffer pv_file pv_height pv_open]. rewrite Nat2Z.id.
  rewrite (proj2 (Nat.leb_le _ _) Hl). rewrite observe_pi_ok; [|exact Hh|].
  2: { rewrite <- (firstn_skipn m pi) in Hpi. apply Forall_app in Hpi. apply Hpi. }
  cbn [bind]. rewrite firstn_length, Nat.min_l by exact Hl.
  assert (E : nth_error (firstn m pi) (m - 1) = nth_error pi (m - 1)).
  { rewrite <- (firstn_skipn m pi) at 2. rewrite nth_error_app1; [reflexivity|]. rewrite firstn_length. lia. }
  rewrite E. unfold pi_row. destruct (nth_error pi (m - 1)) as [v|] eqn:Ev; [|apply nth_error_None in Ev; lia].
  exists (bytes_of (tint v)). split; [reflexivity|]. split; [reflexivity|]. unfold pv_flush. cbn [pv_height].
  destruct left as [|left]; [reflexivity|]. replace (Z.of_nat (S left) =? 0) with false by (symmetry; apply Z.eqb_neq; lia).
  unfold pv_write. cbn [pv_open pv_width pv_buffer pv_file andb]. rewrite (proj2 (Z.ltb_lt 0 (Z.of_nat m))) by lia. cbn [bind Nat.eqb]. unfold pi_state. do 2 f_equal. lia.
Qed.
Lemma pi_observations_ok m l : (0 < m)%nat -> forall h f left, length h = 3%nat ->
  Forall (fun pi => (m <= length pi)%nat /\ Forall number pi) l ->
  exists h', length h' = 3%nat /\ h' ++ repeat 0 (3 * (m - 1)) = last_row m h l /\
    pi_observations (pi_state m h f left) l = Some (pi_state m h' (f ++ concat (map (pi_row m) (firstn left l))) (left - length l)).
Proof.
  intros Hm. induction l as [|pi l IH]; intros h f left Hh Hl.
  - exists h. split; [exact Hh|]. split; [reflexivity|]. rewrite firstn_nil, app_nil_r. cbn [pi_observations length]. rewrite Nat.sub_0_r. reflexivity.
  - inversion Hl as [|? ? [H1 H2] Hl']; subst. cbn [pi_observations].
    destruct (pi_observation_ok m h f left pi Hm Hh H1 H2) as (h1 & L1 & R1 & E1). rewrite E1. cbn [bind].
    destruct (IH h1 (if Nat.eqb left 0 then f else f ++ pi_row m pi) (left - 1)%nat L1 Hl') as (h' & L & R & E). exists h'. split; [exact L|]. split.
    + rewrite R. unfold last_row. cbn [length]. replace (S (length l) - 1)%nat with (length l) by lia. destruct l as [|w l]; [exact R1|]. cbn [length]. replace (S (length l) - 1)%nat with (length l) by lia.
      cbn [nth_error]. destruct (nth_error (w :: l) (length l)) eqn:G; [reflexivity|]. apply nth_error_None in G. cbn in G. lia.
    + rewrite E. f_equal. unfold pi_state. f_equal; [|cbn [length]; lia]. destruct left as [|left]; [reflexivity|]. cbn [Nat.eqb firstn map concat]. rewrite Nat.sub_succ, Nat.sub_0_r, app_assoc. reflexivity.
Qed.
Lemma pv_destroy_ok m h k : (0 < m)%nat -> forall f left, pv_destroy k (pi_state m h f left) = Some (f ++ concat (repeat (h ++ repeat 0 (3 * (m - 1))) k)).
Proof.
  intros Hm. assert (G : forall f z, pv_destroy k (mk_pnm_vector (Some (h ++ repeat 0 (3 * (m - 1)))) f z (Z.of_nat m) true) = Some (f ++ concat (repeat (h ++ repeat 0 (3 * (m - 1))) k))).
  { induction k as [|k IH]; intros f z; [cbn; rewrite app_nil_r; reflexivity|]. cbn [pv_destroy]. unfold pv_write. cbn [pv_open pv_width pv_buffer pv_file pv_height andb].
    rewrite (proj2 (Z.ltb_lt 0 (Z.of_nat m))) by lia. cbn [bind]. rewrite IH. cbn [repeat concat]. rewrite <- !app_assoc. reflexivity. }
  intros f left. apply G.
Qed.
Lemma pi_image_ok m loop l : (0 < m)%nat -> (0 < loop)%nat -> Forall (fun pi => (m <= length pi)%nat /\ Forall number pi) l ->
  pi_image true (Z.of_nat m) (Z.of_nat loop) l =
    Some (bytes_of_text (header (Z.of_nat m) (Z.of_nat loop)) ++ concat (map (pi_row m) (firstn loop l) ++ repeat (last_row m [0; 0; 0] l) (loop - length l))).
Proof.
  intros Hm Hloop Hl. unfold pi_image, make_pnm_vector. assert (Hp : 0 < Z.of_nat loop * Z.of_nat m) by (apply Z.mul_pos_pos; lia).
  rewrite (proj2 (Z.ltb_lt _ _) Hp). cbn [andb].
  replace (repeat 0 (Z.to_nat (3 * Z.of_nat m))) with ([0; 0; 0] ++ repeat 0 (3 * (m - 1))).
  2: { replace (Z.to_nat (3 * Z.of_nat m)) with (3 + 3 * (m - 1))%nat by lia. rewrite repeat_app. reflexivity. }
  destruct (pi_observations_ok m l Hm [0; 0; 0] (bytes_of_text (header (Z.of_nat m) (Z.of_nat loop))) loop eq_refl Hl) as (h' & L & R & E).
  unfold pi_state in E at 1. rewrite E. cbn [bind]. cbn [pi_state pv_height]. rewrite Nat2Z.id.
  rewrite pv_destroy_ok by exact Hm. rewrite R, concat_app, app_assoc. reflexivity.
Qed.
Lemma pi_row_length m pi : (0 < m <= length pi)%nat -> length (pi_row m pi) = (3 * m)%nat.
Proof.
  intros H. unfold pi_row. destruct (nth_error pi (m - 1)) as [v|] eqn:E; [|apply nth_error_None in E; lia]. rewrite app_length, repeat_length. cbn [bytes_of length]. lia.
Qed.
Lemma zeros_bytes k : Forall byte (repeat 0 k).
Proof. apply Forall_forall. intros x Hx. apply repeat_spec in Hx. subst x. unfold byte. lia. Qed.
Lemma pi_row_bytes m pi : Forall byte (pi_row m pi).
Proof.
  unfold pi_row. destruct (nth_error pi (m - 1)) as [v|]; [|constructor]. apply Forall_app. split; [|apply zeros_bytes]. repeat constructor; apply level_range.
Qed.
Lemma last_row_cases m l : (l = [] /\ last_row m [0; 0; 0] l = [0; 0; 0] ++ repeat 0 (3 * (m - 1))) \/
  exists pi, In pi l /\ nth_error l (length l - 1) = Some pi /\ last_row m [0; 0; 0] l = pi_row m pi.
Proof.
  unfold last_row. destruct (nth_error l (length l - 1)) as [pi|] eqn:E; [right; exists pi; split; [apply nth_error_In with (length l - 1)%nat; exact E|auto]|left].
  apply nth_error_None in E. destruct l; [auto|cbn in E; lia].
Qed.
Lemma last_row_ok m l : (0 < m)%nat -> Forall (fun pi => (m <= length pi)%nat /\ Forall number pi) l ->
  length (last_row m [0; 0; 0] l) = (3 * m)%nat /\ Forall byte (last_row m [0; 0; 0] l).
Proof.
  intros Hm Hl. destruct (last_row_cases m l) as [[-> ->]|(pi & Hin & _ & ->)].
  - split; [rewrite app_length, repeat_length; cbn; lia|]. apply Forall_app. split; [apply (zeros_bytes 3)|apply zeros_bytes].
  - rewrite Forall_forall in Hl. split; [apply pi_row_length; specialize (Hl _ Hin); lia|apply pi_row_bytes].
Qed.
Lemma concat_length_const {A} (k : nat) (l : list (list A)) : Forall (fun r => length r = k) l -> length (concat l) = (k * length l)%nat.
Proof. induction 1 as [|r l Hr _ IH]; cbn; [lia|]. rewrite app_length, IH, Hr. lia. Qed.
Lemma pi_rows_ok m loop l : (0 < m)%nat -> Forall (fun pi => (m <= length pi)%nat /\ Forall number pi) l ->
  let rows := map (pi_row m) (firstn loop l) ++ repeat (last_row m [0; 0; 0] l) (loop - length l) in
  length rows = loop /\ Forall (fun r => length r = (3 * m)%nat) rows /\ Forall byte (concat rows).
Proof.
  intros Hm Hl rows. destruct (last_row_ok m l Hm Hl) as [L1 L2].
  assert (Hr : Forall (fun r => length r = (3 * m)%nat /\ Forall byte r) rows).
  { apply Forall_app. split.
    - apply Forall_map. apply Forall_forall. intros pi Hpi. rewrite Forall_forall in Hl.
      assert (Hi : In pi l) by (rewrite <- (firstn_skipn loop l); apply in_or_app; left; exact Hpi).
      split; [apply pi_row_length; specialize (Hl _ Hi); lia|apply pi_row_bytes].
    - apply Forall_forall. intros r H. apply repeat_spec in H. subst r. auto. }
  split; [unfold rows; rewrite app_length, map_length, firstn_length, repeat_length; lia|]. split; [eapply Forall_impl; [|exact Hr]; cbn; tauto|].
  clearbody rows. clear - Hr. induction Hr as [|r rows [_ H] _ IH]; [constructor|]. cbn. apply Forall_app. auto.
Qed.

(** ** The text files *)
Section Text.
Context {F : Type} (show show_float : F -> text) (zero : F).
Lemma set_values_ok n (P : list F) (l : list (nat * nat)) : forall vs, length vs = n -> NoDup (map snd l) -> (forall v c, In (v, c) l -> (v < length P)%nat /\ (c < n)%nat) ->
  exists vs', set_values P l vs = Some vs' /\ length vs' = n /\
    (forall v c, In (v, c) l -> nth_error vs' c = nth_error P v) /\ (forall c, ~ In c (map snd l) -> nth_error vs' c = nth_error vs c).
Proof.
  induction l as [|[v c] l IH]; intros vs Hv Hnd Hin.
  - exists vs. split; [reflexivity|]. split; [exact Hv|]. split; [intros v c []|reflexivity].
  - cbn [map snd] in Hnd. inversion Hnd as [|? ? Hnin Hnd']; subst. destruct (Hin v c (or_introl eq_refl)) as [H1 H2]. cbn [set_values].
    destruct (nth_error P v) as [x|] eqn:Ex; [|apply nth_error_None in Ex; lia]. cbn [bind].
    destruct (list_upd_some vs c x H2) as [vs1 E1]. rewrite E1. cbn [bind]. pose proof (list_upd_length _ _ _ _ E1) as L1.
    destruct (IH vs1) as (vs' & E & L & D & U); [exact L1|exact Hnd'|intros; apply Hin; right; assumption|].
    exists vs'. split; [exact E|]. split; [congruence|]. split.
    + intros v' c' [Eq|Hl]; [|apply D; exact Hl]. injection Eq as <- <-. rewrite U by exact Hnin. rewrite (list_upd_nth _ _ _ _ c E1), Ex, Nat.eqb_refl. reflexivity.
    + intros c' Hc'. cbn in Hc'. rewrite U by tauto. rewrite (list_upd_nth _ _ _ _ c' E1). destruct (Nat.eqb_spec c' c); [subst; exfalso; apply Hc'; left; reflexivity|reflexivity].
Qed.
Definition text_row (r : list F) : text := flat_map (fun v => show_float v ++ str " ") r ++ [nl].
Lemma P_lines_ok n ap P m (row : nat -> list (nat * nat)) :
  (forall k, (k < m)%nat -> mx_row ap k = Some (row k) /\ NoDup (map snd (row k)) /\ forall v c, In (v, c) (row k) -> (v < length P)%nat /\ (c < n)%nat) ->
  forall todo k, (k + todo = m)%nat ->
  exists rows, P_lines show_float zero n ap P todo k = Some (flat_map text_row rows) /\ length rows = todo /\
    forall i r, nth_error rows i = Some r -> length r = n /\
      (forall v c, In (v, c) (row (k + i)%nat) -> nth_error r c = nth_error P v) /\
      (forall c, (c < n)%nat -> ~ In c (map snd (row (k + i)%nat)) -> nth_error r c = Some zero).
Proof.
  intros Hrow. induction todo as [|todo IH]; intros k Hk.
  - exists []. split; [reflexivity|]. split; [reflexivity|]. intros [|i] r H; discriminate.
  - cbn [P_lines]. destruct (Hrow k) as (Er & Hnd & Hin); [lia|]. rewrite Er. cbn [bind].
    destruct (set_values_ok n P (row k) (repeat zero n) (repeat_length _ _) Hnd Hin) as (vs & Ev & Lv & Dv & Uv). rewrite Ev. cbn [bind].
    destruct (IH (S k)) as (rows & E & L & D); [lia|]. rewrite E. cbn [bind]. exists (vs :: rows). split; [|split; [cbn; lia|]].
    + cbn [flat_map]. unfold text_row at 2. rewrite <- app_assoc. reflexivity.
    + intros [|i] r H.
      * injection H as <-. rewrite Nat.add_0_r. split; [exact Lv|]. split; [exact Dv|]. intros c Hc G. rewrite Uv by exact G. rewrite nth_error_repeat, (proj2 (Nat.ltb_lt _ _) Hc). reflexivity.
      * replace (k + S i)%nat with (S k + i)%nat by lia. apply D. exact H.
Qed.
Lemma P_texts_ok base m n ap (ok : list F -> text -> Prop) l : Forall (fun P => exists t, P_lines show_float zero n ap P m 0 = Some t /\ ok P t) l ->
  forall frame, exists files, P_texts show_float zero base m n ap frame l = Some files /\ length files = length l /\
    forall q P, nth_error l q = Some P -> exists t, nth_error files q = Some (frame_name base (str "txt") (frame + Z.of_nat q), t) /\ ok P t.
Proof.
  induction 1 as [|P l (t & E & Ht) _ IH]; intros frame.
  - exists []. split; [reflexivity|]. split; [reflexivity|]. intros [|q] P H; discriminate.
  - cbn [P_texts]. rewrite E. cbn [bind]. destruct (IH (frame + 1)) as (files & Ef & Lf & Df). rewrite Ef. cbn [bind].
    eexists. split; [reflexivity|]. split; [cbn; lia|]. intros [|q] P' H.
    + injection H as <-. exists t. split; [|exact Ht]. cbn [nth_error Z.of_nat]. rewrite Z.add_0_r. reflexivity.
    + destruct (Df q P' H) as (t' & H1 & H2). exists t'. split; [|exact H2]. cbn [nth_error]. rewrite H1. do 3 f_equal. lia.
Qed.
End Text.
Lemma P_images_ok base m n ap (ok : list dbl -> list Z -> Prop) l : Forall (fun P => exists f, P_image m n ap P = Some (Some f) /\ ok P f) l ->
  forall frame, exists files, P_images base m n ap frame l = Some files /\ length files = length l /\
    forall q P, nth_error l q = Some P -> exists f, nth_error files q = Some (frame_name base (str "pnm") (frame + Z.of_nat q), f) /\ ok P f.
Proof.
  induction 1 as [|P l (t & E & Ht) _ IH]; intros frame.
  - exists []. split; [reflexivity|]. split; [reflexivity|]. intros [|q] P H; discriminate.
  - cbn [P_images]. rewrite E. cbn [bind]. destruct (IH (frame + 1)) as (files & Ef & Lf & Df). rewrite Ef. cbn [bind].
    eexists. split; [reflexivity|]. split; [cbn; lia|]. intros [|q] P' H.
    + injection H as <-. exists t. split; [|exact Ht]. cbn [nth_error Z.of_nat]. rewrite Z.add_0_r. reflexivity.
    + destruct (Df q P' H) as (t' & H1 & H2). exists t'. split; [|exact H2]. cbn [nth_error]. rewrite H1. do 3 f_equal. lia.
Qed.

(** ** The statements *)
Lemma tint_levels lo hi v : (lo < hi)%Q -> forall t, (bounded lo hi v == lo + t * (hi - lo))%Q -> ((bounded lo hi v - lo) / (hi - lo) == t)%Q.
Proof. intros H t E. rewrite E. field. lra. Qed.
Lemma shade_at_eq s t : (s == t)%Q -> shade_at s = shade_at t.
Proof. intros H. unfold shade_at. f_equal; apply level_eq; rewrite H; reflexivity. Qed.
Lemma bounded_in lo hi q : (lo <= q <= hi)%Q -> bounded lo hi (Fin q) = q.
Proof. intros [H1 H2]. cbn. rewrite (proj2 (Qle_bool_iff _ _) H1), (proj2 (Qle_bool_iff _ _) H2). reflexivity. Qed.
Lemma colormap_props lo hi : (lo < hi)%Q ->
  (forall v, number v -> exists c, colormap lo hi v = Some c /\ byte (red c) /\ byte (green c) /\ byte (blue c)) /\
  (forall v, at_most v (Fin lo) -> colormap lo hi v = Some (mk_rgb 0 0 255)) /\
  (forall v, at_most (Fin hi) v -> colormap lo hi v = Some (mk_rgb 255 0 0)) /\
  colormap lo hi (Fin ((lo + hi) / 2)) = Some (mk_rgb 0 255 0) /\
  (forall t : Q, (0 <= t <= 1)%Q -> colormap lo hi (Fin (lo + t * (hi - lo))) = Some (shade_at t)) /\
  (forall v w a b, at_most v w -> colormap lo hi v = Some a -> colormap lo hi w = Some b -> red a <= red b /\ blue b <= blue a).
Proof.
  intros H.
  assert (Hmid : forall t : Q, (0 <= t <= 1)%Q -> colormap lo hi (Fin (lo + t * (hi - lo))) = Some (shade_at t)).
  { intros t [T0 T1]. rewrite colormap_ok by (try exact H; discriminate). f_equal. apply shade_at_eq, tint_levels; [exact H|]. rewrite bounded_in; [reflexivity|].
    assert (0 * (hi - lo) <= t * (hi - lo))%Q by (apply Qmult_le_compat_r; lra). assert (t * (hi - lo) <= 1 * (hi - lo))%Q by (apply Qmult_le_compat_r; lra). lra. }
  split; [|split; [|split; [|split; [|split]]]].
  - intros v Hv. rewrite (colormap_ok lo hi v H Hv). eexists. split; [reflexivity|]. split; [|split]; apply level_range.
  - intros v Hv. rewrite (colormap_ok lo hi v H) by (destruct v; [contradiction|discriminate..]). transitivity (Some (shade_at 0)); [|reflexivity]. f_equal. apply shade_at_eq, tint_levels; [exact H|].
    pose proof (bounded_mono lo hi v (Fin lo) H Hv) as M. rewrite (bounded_in lo hi lo) in M by lra. pose proof (bounded_range lo hi v H). lra.
  - intros v Hv. rewrite (colormap_ok lo hi v H) by (destruct v; [contradiction|discriminate..]). transitivity (Some (shade_at 1)); [|reflexivity]. f_equal. apply shade_at_eq, tint_levels; [exact H|].
    pose proof (bounded_mono lo hi (Fin hi) v H Hv) as M. rewrite (bounded_in lo hi hi) in M by lra. pose proof (bounded_range lo hi v H). lra.
  - rewrite colormap_ok by (try exact H; discriminate). transitivity (Some (shade_at (1 # 2))); [|reflexivity]. f_equal. apply shade_at_eq, tint_levels; [exact H|].
    assert (G : ((lo + hi) / 2 == lo + (1 # 2) * (hi - lo))%Q) by field. rewrite bounded_in; [exact G|]. rewrite G. lra.
  - exact Hmid.
  - intros v w a b Hvw Ea Eb. rewrite (colormap_ok lo hi v H) in Ea by (destruct v; [contradiction|discriminate..]).
    rewrite (colormap_ok lo hi w H) in Eb by (destruct w; [destruct v; contradiction|discriminate..]). injection Ea as <-. injection Eb as <-.
    assert (M : ((bounded lo hi v - lo) / (hi - lo) <= (bounded lo hi w - lo) / (hi - lo))%Q).
    { unfold Qdiv. apply Qmult_le_compat_r; [pose proof (bounded_mono lo hi v w H Hvw); lra|]. apply Qinv_le_0_compat. lra. }
    cbn [shade_at red blue]. split; apply level_mono; lra.
Qed.
Lemma black_bytes k : concat (repeat black k) = repeat 0 (3 * k).
Proof. induction k as [|k IH]; [reflexivity|]. replace (3 * S k)%nat with (3 + 3 * k)%nat by lia. rewrite repeat_app. cbn [repeat concat]. rewrite IH. reflexivity. Qed.
Lemma pi_image_rows m loop (observed : list (list dbl)) :
  (0 < m)%nat -> (0 < loop)%nat -> Forall (fun pi => (m <= length pi)%nat /\ Forall number pi) observed ->
  exists rows, pi_image true (Z.of_nat m) (Z.of_nat loop) observed = Some (bytes_of_text (header (Z.of_nat m) (Z.of_nat loop)) ++ concat rows) /\
    length rows = loop /\ Forall (fun r => length r = (3 * m)%nat) rows /\
    (forall k pi v c, (k < loop)%nat -> nth_error observed k = Some pi -> nth_error pi (m - 1) = Some v -> colormap (-1) 1 v = Some c ->
       nth_error rows k = Some (bytes_of c ++ concat (repeat black (m - 1)))) /\
    (forall k, (length observed <= k < loop)%nat -> (0 < length observed)%nat -> nth_error rows k = nth_error rows (length observed - 1)) /\
    (observed = [] -> rows = repeat (concat (repeat black m)) loop).
Proof.
  intros Hm Hloop Hl. rewrite (pi_image_ok m loop observed Hm Hloop Hl). eexists. split; [reflexivity|]. split; [apply (pi_rows_ok m loop observed Hm Hl)|]. split; [apply (pi_rows_ok m loop observed Hm Hl)|].
  assert (Hrow : forall k pi, (k < loop)%nat -> nth_error observed k = Some pi ->
    nth_error (map (pi_row m) (firstn loop observed) ++ repeat (last_row m [0; 0; 0] observed) (loop - length observed)) k = Some (pi_row m pi)).
  { intros k pi Hk Hp. assert (k < length observed)%nat by (apply nth_error_Some; congruence).
    rewrite nth_error_app1 by (rewrite map_length, firstn_length; lia). apply map_nth_error.
    rewrite <- (firstn_skipn loop observed) in Hp. rewrite nth_error_app1 in Hp by (rewrite firstn_length; lia). exact Hp. }
  split; [|split].
  - intros k pi v c Hk Hp Hv Hc. rewrite (Hrow k pi Hk Hp). unfold pi_row. rewrite Hv. rewrite black_bytes. f_equal.
    assert (Nv : number v) by (intros ->; discriminate). rewrite (tint_ok v Nv) in Hc. injection Hc as <-. reflexivity.
  - intros k Hk Hn. rewrite nth_error_app2 by (rewrite map_length, firstn_length; lia). rewrite map_length, firstn_length, Nat.min_r by lia.
    rewrite nth_error_repeat, (proj2 (Nat.ltb_lt _ _)) by lia.
    destruct (last_row_cases m observed) as [[E _]|(pi & _ & Ep & E3)]; [subst; cbn in Hn; lia|]. rewrite (Hrow (length observed - 1)%nat pi); [rewrite E3; reflexivity|lia|exact Ep].
  - intros ->. rewrite firstn_nil. cbn [map app length]. rewrite Nat.sub_0_r, black_bytes. unfold last_row. cbn [length nth_error Nat.sub]. f_equal.
    replace (3 * m)%nat with (3 + 3 * (m - 1))%nat by lia. rewrite (repeat_app 0 3). reflexivity.
Qed.
Lemma concat_nth_const {A} (d : A) c : forall rows k r i, Forall (fun r => length r = c) rows -> nth_error rows k = Some r -> (i < c)%nat -> nth (c * k + i) (concat rows) d = nth i r d.
Proof.
  induction rows as [|a rows IH]; intros k r i Hf Hk Hi; [destruct k; discriminate|]. inversion Hf as [|? ? Ha Hf']; subst.
  destruct k as [|k]; cbn [nth_error concat] in *.
  - injection Hk as ->. rewrite Nat.mul_0_r. apply app_nth1. exact Hi.
  - rewrite app_nth2 by lia. replace (length a * S k + i - length a)%nat with (length a * k + i)%nat by lia. apply IH; assumption.
Qed.
Lemma pi_image_one loop (observed : list (list dbl)) : (0 < loop)%nat -> Forall (fun pi => (1 <= length pi)%nat /\ Forall number pi) observed ->
  exists img, pi_image true 1 (Z.of_nat loop) observed = Some (bytes_of_text (header 1 (Z.of_nat loop)) ++ img) /\
    forall k pi v c, (k < loop)%nat -> nth_error observed k = Some pi -> nth_error pi 0 = Some v -> colormap (-1) 1 v = Some c -> pixel img 1 k 0 = bytes_of c.
Proof.
  intros Hloop Hl. destruct (pi_image_rows 1 loop observed ltac:(lia) Hloop Hl) as (rows & E & L & Hall & D & _). exists (concat rows). split; [exact E|].
  intros k pi v c Hk Hp Hv Hc. specialize (D k pi v c Hk Hp Hv Hc). cbn [concat repeat Nat.sub] in D. rewrite app_nil_r in D.
  unfold pixel. cbv zeta. replace (3 * (k * 1 + 0))%nat with (3 * k + 0)%nat by lia. rewrite <- !Nat.add_assoc. change (3 * 1)%nat with 3%nat in Hall.
  rewrite !(concat_nth_const 0 3 rows k _ _ Hall D) by lia. reflexivity.
Qed.
Lemma observers_fail :
  (forall (m : nat) loop pi rest, (0 < m)%nat -> loop < 0 -> pi_image true (Z.of_nat m) loop (pi :: rest) = None) /\
  (forall (m : nat) loop pi rest, (0 < m)%nat -> pi_image false (Z.of_nat m) loop (pi :: rest) = None) /\
  pi_image true 1 1 [[NaN]] = None.
Proof.
  assert (G : forall m p pi rest, (0 < m)%nat -> pv_buffer p = None -> pv_width p = Z.of_nat m -> pi_observations p (pi :: rest) = None).
  { intros m p pi rest Hm Hb Hw. cbn [pi_observations]. unfold pi_observation. rewrite Hb, Hw, Nat2Z.id. destruct (Nat.leb_spec m (length pi)) as [H|H]; [|reflexivity].
    destruct m as [|m]; [lia|]. destruct pi as [|v pi]; [cbn in H; lia|]. reflexivity. }
  split; [|split].
  - intros m loop pi rest Hm Hl. unfold pi_image. rewrite (G m); [reflexivity|exact Hm| |]; unfold make_pnm_vector; cbn [andb]; (destruct (Z.ltb_spec 0 (loop * Z.of_nat m)) as [H|H]; [exfalso; nia|reflexivity]).
  - intros m loop pi rest Hm. unfold pi_image. rewrite (G m); [reflexivity|exact Hm|reflexivity|reflexivity].
  - reflexivity.
Qed.
Lemma P_images_all (base : text) (csts : list (list felem)) (n : nat) (ap : matrix) (observed : list (list dbl)) :
  make_matrix csts n = Some ap -> (exists c, In c csts /\ c <> []) ->
  (forall c, In c csts -> NoDup (map f_var c) /\ forall e, In e c -> (f_var e < n)%nat) ->
  3 * Z.of_nat (length csts) * Z.of_nat n < 2 ^ 32 ->
  Forall (fun P => Forall number P /\ (elements_before csts (length csts) <= length P)%nat) observed ->
  exists files, P_images base (Z.of_nat (length csts)) (Z.of_nat n) ap 0 observed = Some files /\ length files = length observed /\
    forall q P, nth_error observed q = Some P -> exists img,
      nth_error files q = Some (base ++ str "-P-" ++ show_int (Z.of_nat q) ++ str ".pnm",
        bytes_of_text (str "P6 " ++ show_int (Z.of_nat n) ++ str " " ++ show_int (Z.of_nat (length csts)) ++ str " 255 ") ++ img) /\
      length img = (3 * (length csts * n))%nat /\ Forall byte img /\
      (forall k p v, element_at csts k p v ->
         exists x c, nth_error P (elements_before csts k + p) = Some x /\ colormap (-1) 1 x = Some c /\ pixel img n k v = bytes_of c) /\
      (forall k v, (k < length csts)%nat -> (v < n)%nat -> (forall p, ~ element_at csts k p v) -> pixel img n k v = black).
Proof.
  intros Hm Hne Hwf H32 Ho.
  destruct (P_images_ok base (Z.of_nat (length csts)) (Z.of_nat n) ap
    (fun P f => exists img, f = bytes_of_text (header (Z.of_nat n) (Z.of_nat (length csts))) ++ img /\ length img = (3 * (length csts * n))%nat /\ Forall byte img /\
      (forall k p v, element_at csts k p v ->
         exists x c, nth_error P (elements_before csts k + p) = Some x /\ colormap (-1) 1 x = Some c /\ pixel img n k v = bytes_of c) /\
      (forall k v, (k < length csts)%nat -> (v < n)%nat -> (forall p, ~ element_at csts k p v) -> pixel img n k v = black)) observed) with (frame := 0) as (files & E & L & D).
  - eapply Forall_impl; [|exact Ho]. intros P [H1 H2]. destruct (P_image_ok csts n ap P Hm Hne Hwf H32 H1 H2) as (img & Ei & Hi). eexists. split; [exact Ei|]. exists img. split; [reflexivity|exact Hi].
  - exists files. split; [exact E|]. split; [exact L|]. intros q P HP. destruct (D q P HP) as (f & Hf & img & -> & Hi). exists img. split; [|exact Hi]. rewrite Hf. reflexivity.
Qed.
Lemma P_texts_all {F : Type} (show_float : F -> text) (zero : F) (base : text) (csts : list (list felem)) (n : nat) (ap : matrix) (observed : list (list F)) :
  make_matrix csts n = Some ap -> (exists c, In c csts /\ c <> []) ->
  (forall c, In c csts -> NoDup (map f_var c) /\ forall e, In e c -> (f_var e < n)%nat) ->
  Forall (fun P => (elements_before csts (length csts) <= length P)%nat) observed ->
  exists files, P_texts show_float zero base (length csts) n ap 0 observed = Some files /\ length files = length observed /\
    forall q P, nth_error observed q = Some P -> exists rows,
      nth_error files q = Some (base ++ str "-P-" ++ show_int (Z.of_nat q) ++ str ".txt",
        flat_map (fun r => flat_map (fun v => show_float v ++ str " ") r ++ [nl]) rows) /\
      length rows = length csts /\
      (forall k r, nth_error rows k = Some r -> length r = n /\
         (forall p v, element_at csts k p v -> nth_error r v = nth_error P (elements_before csts k + p)) /\
         (forall v, (v < n)%nat -> (forall p, ~ element_at csts k p v) -> nth_error r v = Some zero)).
Proof.
  intros Hm Hne Hwf Ho. destruct (matrix_rows csts n ap Hm Hne Hwf) as (Hn & Hm0 & row & Hrow & Hel & Hno).
  destruct (P_texts_ok show_float zero base (length csts) n ap
    (fun P t => exists rows, t = flat_map (fun r => flat_map (fun v => show_float v ++ str " ") r ++ [nl]) rows /\
      length rows = length csts /\
      (forall k r, nth_error rows k = Some r -> length r = n /\
         (forall p v, element_at csts k p v -> nth_error r v = nth_error P (elements_before csts k + p)) /\
         (forall v, (v < n)%nat -> (forall p, ~ element_at csts k p v) -> nth_error r v = Some zero))) observed) with (frame := 0) as (files & E & L & D).
  - eapply Forall_impl; [|exact Ho]. intros P HP. cbv beta in HP. destruct (P_lines_ok show_float show_float zero n ap P (length csts) row) with (todo := length csts) (k := 0%nat) as (rows & Er & Lr & Dr).
    + intros k Hk. destruct (Hrow k Hk) as (H1 & H2 & H3). split; [exact H1|]. split; [exact H2|]. intros v c G. destruct (H3 v c G). lia.
    + reflexivity.
    + eexists. split; [exact Er|]. exists rows. split; [reflexivity|]. split; [exact Lr|]. intros k r Hk. destruct (Dr k r Hk) as (R1 & R2 & R3). split; [exact R1|]. cbn [Nat.add] in R2, R3. split.
      * intros p v Hp. apply R2. apply Hel. exact Hp.
      * intros v Hv Hp. apply R3; [exact Hv|]. apply Hno; [|exact Hp]. rewrite <- Lr. apply nth_error_Some. congruence.
  - exists files. split; [exact E|]. split; [exact L|]. intros q P HP. destruct (D q P HP) as (t & Ht & rows & -> & Hr). exists rows. split; [|exact Hr]. rewrite Ht. reflexivity.
Qed.
