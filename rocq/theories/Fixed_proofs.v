(** fixed_array refines the arrays of Fixed_spec. *)
From Verif Require Import Base Fixed_model Fixed_spec.

Open Scope nat_scope.
Section Refine.
Context {T : Type}.
Variable z : T.
Notation memory := (memory T).
Definition view (h : list (option (list T))) (o : option object) : option (avalue T) :=
  match o with
  | None => None
  | Some (None, n) => Some (A_gone n)
  | Some (Some p, n) => match nth_error h p with Some (Some l) => Some (A_array l) | _ => None end
  end.
Definition abs (m : memory) : values T := map (view (heap m)) (objects m).
Record inv (m : memory) : Prop := {
  i_owns : forall a p n, nth_error (objects m) a = Some (Some (Some p, n)) -> exists l, nth_error (heap m) p = Some (Some l) /\ length l = n;
  i_inj : forall a b p n k, nth_error (objects m) a = Some (Some (Some p, n)) -> nth_error (objects m) b = Some (Some (Some p, k)) -> a = b;
  i_leak : forall p l, nth_error (heap m) p = Some (Some l) -> exists a n, nth_error (objects m) a = Some (Some (Some p, n)) }.
Lemma inv0 : inv memory0.
Proof. constructor; cbn; intros; [destruct a; discriminate|destruct a; discriminate|destruct p; discriminate]. Qed.
Lemma abs_nth (m : memory) a : nth_error (abs m) a = option_map (view (heap m)) (nth_error (objects m) a).
Proof. unfold abs. apply nth_error_map. Qed.
Lemma list_ext {A} (l k : list A) : (forall i, nth_error l i = nth_error k i) -> l = k.
Proof.
  revert k. induction l as [|x l IH]; intros [|y k] H; [reflexivity|specialize (H O); discriminate|specialize (H O); discriminate|].
  f_equal; [specialize (H O); injection H; auto|]. apply IH. intros i. apply (H (S i)).
Qed.
Lemma value_at_abs (m : memory) a : inv m -> value_at (abs m) a =
  match object_at m a with
  | None => None
  | Some (None, n) => Some (A_gone n)
  | Some (Some p, n) => match nth_error (heap m) p with Some (Some l) => Some (A_array l) | _ => None end
  end.
Proof.
  intros _. unfold value_at, object_at. rewrite abs_nth. destruct (nth_error (objects m) a) as [[[[p|] n]|]|]; reflexivity.
Qed.
Lemma object_at_nth (m : memory) a o : object_at m a = Some o <-> nth_error (objects m) a = Some (Some o).
Proof. unfold object_at. destruct (nth_error (objects m) a) as [[o'|]|]; cbn; split; congruence. Qed.
(** An object alive has a value. *)
Lemma alive (m : memory) a : inv m -> match object_at m a, value_at (abs m) a with
  | None, None => True
  | Some (None, n), Some (A_gone k) => k = n
  | Some (Some p, n), Some (A_array l) => nth_error (heap m) p = Some (Some l) /\ length l = n
  | _, _ => False
  end.
Proof.
  intros H. rewrite value_at_abs by exact H. destruct (object_at m a) as [[[p|] n]|] eqn:E; [|reflexivity|exact I].
  apply object_at_nth in E. destruct (i_owns m H _ _ _ E) as (l & E1 & E2). rewrite E1. auto.
Qed.
Lemma copied_copy (m : memory) a o v : inv m -> object_at m a = Some o -> value_at (abs m) a = Some v ->
  match copied m o, copy_of v with
  | Some l, Some (A_array k) => l = k /\ length l = snd o
  | None, None => True
  | _, _ => False
  end.
Proof.
  intros H E1 E2. pose proof (alive m a H) as K. rewrite E1, E2 in K. destruct o as [[p|] n], v as [l|k]; try contradiction.
  - destruct K as [K1 K2]. unfold copied. cbn [fst snd copy_of]. destruct n as [|n]; [destruct l; [auto|discriminate]|].
    unfold block. cbn [bind]. rewrite K1. cbn [bind]. rewrite K2, Nat.leb_refl. rewrite firstn_all2 by lia. auto.
  - subst k. destruct n; cbn; [auto|exact I].
Qed.
(** *** Changes of the memory *)
Lemma nth_app_new {A} (l : list A) x a : nth_error (l ++ [x]) a = if Nat.eqb a (length l) then Some x else nth_error l a.
Proof.
  destruct (Nat.eqb_spec a (length l)) as [->|Hn]; [rewrite nth_error_app2 by lia; rewrite Nat.sub_diag; reflexivity|].
  destruct (Nat.lt_ge_cases a (length l)); [apply nth_error_app1; assumption|]. rewrite nth_error_app2 by lia.
  destruct (a - length l) as [|k] eqn:E; [lia|]. cbn. rewrite (proj2 (nth_error_None l a)) by lia. destruct k; reflexivity.
Qed.
Lemma nth_old {A} (l : list A) x a y : nth_error l a = Some y -> nth_error (l ++ [x]) a = Some y.
Proof. intros H. rewrite nth_error_app1; [exact H|]. apply nth_error_Some. congruence. Qed.
(** A new object with a new block. *)
Lemma new_inv (m : memory) l : inv m -> inv (construct (fst (allocate m l)) (Some (snd (allocate m l)), length l)) /\
  abs (construct (fst (allocate m l)) (Some (snd (allocate m l)), length l)) = abs m ++ [Some (A_array l)].
Proof.
  intros H. unfold construct, allocate. cbn [fst snd heap objects]. split.
  - constructor; cbn [heap objects].
    + intros a p n. rewrite nth_app_new. destruct (Nat.eqb_spec a (length (objects m))).
      * intros E. injection E as <- <-. exists l. rewrite nth_app_new, Nat.eqb_refl. auto.
      * intros E. destruct (i_owns m H _ _ _ E) as (k & E1 & E2). exists k. split; [apply nth_old; exact E1|exact E2].
    + intros a b p n k. rewrite !nth_app_new. destruct (Nat.eqb_spec a (length (objects m))), (Nat.eqb_spec b (length (objects m))).
      * congruence.
      * intros E1 E2. injection E1 as <- <-. destruct (i_owns m H _ _ _ E2) as (q & E & _). assert (nth_error (heap m) (length (heap m)) = None) by (apply nth_error_None; lia). congruence.
      * intros E2 E1. injection E1 as <- <-. destruct (i_owns m H _ _ _ E2) as (q & E & _). assert (nth_error (heap m) (length (heap m)) = None) by (apply nth_error_None; lia). congruence.
      * intros E1 E2. exact (i_inj m H _ _ _ _ _ E1 E2).
    + intros p k. rewrite nth_app_new. destruct (Nat.eqb_spec p (length (heap m))) as [->|].
      * intros E. exists (length (objects m)), (length l). rewrite nth_app_new, Nat.eqb_refl. reflexivity.
      * intros E. destruct (i_leak m H _ _ E) as (a & j & E1). exists a, j. apply nth_old. exact E1.
  - apply list_ext. intros a. rewrite abs_nth. cbn [heap objects]. rewrite !nth_app_new. unfold abs at 1. rewrite map_length.
    destruct (Nat.eqb_spec a (length (objects m))).
    + cbn. rewrite nth_app_new, Nat.eqb_refl. reflexivity.
    + rewrite abs_nth. destruct (nth_error (objects m) a) as [[[[p|] j]|]|] eqn:E; try reflexivity. cbn. destruct (i_owns m H _ _ _ E) as (k & E1 & E2).
      rewrite (nth_old _ _ _ _ E1), E1. reflexivity.
Qed.
Ltac cases := repeat match goal with
  | H : context [Nat.eqb ?a ?b] |- _ => destruct (Nat.eqb_spec a b); subst
  | |- context [Nat.eqb ?a ?b] => destruct (Nat.eqb_spec a b); subst
  end.
Lemma upd_exists {A} (l : list A) i a x : nth_error l i = Some x -> exists l', list_upd l i a = Some l'.
Proof. intros H. apply list_upd_some. apply nth_error_Some. congruence. Qed.
(** Two lists of values that are the same everywhere. *)
Lemma abs_upd (m : memory) a v x : nth_error (objects m) a = Some x -> exists s, list_upd (abs m) a v = Some s /\ forall b, nth_error s b = if Nat.eqb b a then Some v else nth_error (abs m) b.
Proof.
  intros H. destruct (upd_exists (abs m) a v (view (heap m) x)) as [s Hs]; [rewrite abs_nth, H; reflexivity|]. exists s. split; [exact Hs|]. intros b. apply list_upd_nth. exact Hs.
Qed.
(** The objects are exchanged. *)
Lemma swap_ok (m : memory) a b o d : inv m -> object_at m a = Some o -> object_at m b = Some d ->
  exists m', (do m1 <- write_object m a (Some d); write_object m1 b (Some o)) = Some m' /\ inv m' /\
    heap m' = heap m /\ forall c, nth_error (objects m') c = if Nat.eqb c b then Some (Some o) else if Nat.eqb c a then Some (Some d) else nth_error (objects m) c.
Proof.
  intros H E1 E2. apply object_at_nth in E1, E2. unfold write_object.
  destruct (upd_exists (objects m) a (Some d) _ E1) as [l1 H1]. rewrite H1. cbn [bind heap objects].
  assert (E3 : exists x, nth_error l1 b = Some x) by (rewrite (list_upd_nth _ _ _ _ b H1); destruct (Nat.eqb b a); eauto). destruct E3 as [x E3].
  destruct (upd_exists l1 b (Some o) _ E3) as [l2 H2]. rewrite H2. cbn [bind heap objects]. eexists. split; [reflexivity|].
  assert (N : forall c, nth_error l2 c = if Nat.eqb c b then Some (Some o) else if Nat.eqb c a then Some (Some d) else nth_error (objects m) c).
  { intros c. rewrite (list_upd_nth _ _ _ _ c H2), (list_upd_nth _ _ _ _ c H1). reflexivity. }
  split; [|split; [reflexivity|exact N]]. constructor; cbn [heap objects].
  - intros c p n. rewrite N. intros E. cases; try (injection E as E; subst); eapply i_owns; eauto.
  - intros c e p n k. rewrite !N. intros F1 F2.
    assert (Q : forall u w p n k, nth_error (objects m) u = Some (Some (Some p, n)) -> nth_error (objects m) w = Some (Some (Some p, k)) -> u = w) by (intros; eapply (i_inj m H); eauto).
    cases; try reflexivity; try (injection F1 as F1; subst); try (injection F2 as F2; subst); try (pose proof (Q _ _ _ _ _ E1 E2)); try (pose proof (Q _ _ _ _ _ F1 F2));
      try (pose proof (Q _ _ _ _ _ E1 F2)); try (pose proof (Q _ _ _ _ _ E2 F2)); try (pose proof (Q _ _ _ _ _ F1 E1)); try (pose proof (Q _ _ _ _ _ F1 E2)); congruence.
  - intros p l E. destruct (i_leak m H _ _ E) as (c & n & E4).
    destruct (Nat.eq_dec c a) as [->|]; [|destruct (Nat.eq_dec c b) as [->|]].
    + exists b, n. rewrite N, Nat.eqb_refl. congruence.
    + destruct (Nat.eq_dec a b) as [->|]; [congruence|]. exists a, n. rewrite N, Nat.eqb_refl. cases; congruence.
    + exists c, n. rewrite N. cases; congruence.
Qed.
(** A pointer is freed. *)
Definition points (o : object) (p : nat) : bool := match fst o with Some q => Nat.eqb p q | None => false end.
Lemma release_ok (m : memory) a d : inv m -> object_at m a = Some d ->
  exists m', release m (fst d) = Some m' /\ objects m' = objects m /\ forall p, nth_error (heap m') p = if points d p then Some None else nth_error (heap m) p.
Proof.
  intros H E. apply object_at_nth in E. destruct d as [[q|] n]; cbn [fst release points].
  - destruct (i_owns m H _ _ _ E) as (l & E1 & _). rewrite E1. cbn [bind]. destruct (upd_exists (heap m) q None _ E1) as [h Hh]. rewrite Hh. cbn [bind].
    eexists. split; [reflexivity|]. split; [reflexivity|]. intros p. cbn [heap]. apply list_upd_nth. exact Hh.
  - exists m. auto.
Qed.
(** The object [a] loses its buffer, the block of [d] is freed. *)
Lemma destroy_ok (m : memory) a d : inv m -> object_at m a = Some d ->
  exists m', (do m1 <- release m (fst d); write_object m1 a None) = Some m' /\ inv m' /\ list_upd (abs m) a None = Some (abs m').
Proof.
  intros H E. destruct (release_ok m a d H E) as (m1 & E1 & E2 & E3). rewrite E1. cbn [bind]. apply object_at_nth in E.
  unfold write_object. rewrite E2. destruct (upd_exists (objects m) a None _ E) as [l Hl]. rewrite Hl. cbn [bind]. eexists. split; [reflexivity|].
  assert (N : forall c, nth_error l c = if Nat.eqb c a then Some None else nth_error (objects m) c) by (intros c; apply list_upd_nth; exact Hl).
  assert (Own : forall c p n, c <> a -> nth_error (objects m) c = Some (Some (Some p, n)) -> points d p = false).
  { intros c p n Hc Ec. unfold points. destruct d as [[q|] k]; [|reflexivity]. cbn [fst]. destruct (Nat.eqb_spec p q) as [->|]; [|reflexivity].
    exfalso. apply Hc. eapply (i_inj m H); eauto. }
  split.
  - constructor; cbn [heap objects].
    + intros c p n. rewrite N, E3. intros F. cases; [discriminate|]. rewrite (Own _ _ _ n0 F). eapply i_owns; eauto.
    + intros c e p n k. rewrite !N. intros F1 F2. cases; try discriminate. eapply i_inj; eauto.
    + intros p k. rewrite E3. destruct (points d p) eqn:F; [discriminate|]. intros F2. destruct (i_leak m H _ _ F2) as (c & n & F3). exists c, n. rewrite N.
      destruct (Nat.eqb_spec c a) as [->|]; [|exact F3]. rewrite E in F3. injection F3 as ->. unfold points in F. cbn in F. rewrite Nat.eqb_refl in F. discriminate.
  - destruct (abs_upd m a None _ E) as (s & Hs & Ns). rewrite Hs. f_equal. apply list_ext. intros c. rewrite Ns, !abs_nth. cbn [heap objects]. rewrite N. cases; [reflexivity|].
    destruct (nth_error (objects m) c) as [[[[p|] k]|]|] eqn:F; try reflexivity. cbn. rewrite E3, (Own _ _ _ n F). reflexivity.
Qed.
(** [a] gets a new block with [l], its old block is freed. *)
Lemma assign_ok (m : memory) a d l : inv m -> object_at m a = Some d ->
  exists m', (do m1 <- release (fst (allocate m l)) (fst d); write_object m1 a (Some (Some (snd (allocate m l)), length l))) = Some m' /\ inv m' /\
    list_upd (abs m) a (Some (A_array l)) = Some (abs m').
Proof.
  intros H E. pose proof E as E0. apply object_at_nth in E. unfold allocate. cbn [fst snd].
  set (L := length (heap m)).
  assert (R : exists m1, release (mk_memory (heap m ++ [Some l]) (objects m)) (fst d) = Some m1 /\ objects m1 = objects m /\
    forall p, nth_error (heap m1) p = if points d p then Some None else nth_error (heap m ++ [Some l]) p).
  { destruct d as [[q|] n]; cbn [fst release points].
    - destruct (i_owns m H _ _ _ E) as (k & E1 & _). cbn [heap]. rewrite (nth_old _ _ _ _ E1). cbn [bind]. destruct (upd_exists (heap m ++ [Some l]) q None _ (nth_old _ _ _ _ E1)) as [h Hh]. rewrite Hh. cbn [bind].
      eexists. split; [reflexivity|]. split; [reflexivity|]. intros p. cbn [heap]. apply list_upd_nth. exact Hh.
    - eexists. split; [reflexivity|]. auto. }
  destruct R as (m1 & E1 & E2 & E3). rewrite E1. cbn [bind]. unfold write_object. rewrite E2.
  destruct (upd_exists (objects m) a (Some (Some L, length l)) _ E) as [k Hk]. rewrite Hk. cbn [bind]. eexists. split; [reflexivity|].
  assert (N : forall c, nth_error k c = if Nat.eqb c a then Some (Some (Some L, length l)) else nth_error (objects m) c) by (intros c; apply list_upd_nth; exact Hk).
  assert (Old : forall c p n, nth_error (objects m) c = Some (Some (Some p, n)) -> p < L).
  { intros c p n F. destruct (i_owns m H _ _ _ F) as (q & F1 & _). apply nth_error_Some. congruence. }
  assert (Own : forall c p n, c <> a -> nth_error (objects m) c = Some (Some (Some p, n)) -> points d p = false).
  { intros c p n Hc Ec. unfold points. destruct d as [[q|] j]; [|reflexivity]. cbn [fst]. destruct (Nat.eqb_spec p q) as [->|]; [|reflexivity].
    exfalso. apply Hc. eapply (i_inj m H); eauto. }
  assert (PL : points d L = false).
  { unfold points. destruct d as [[q|] j]; [|reflexivity]. cbn [fst]. destruct (Nat.eqb_spec L q) as [<-|]; [|reflexivity]. pose proof (Old _ _ _ E). lia. }
  assert (HL : nth_error (heap m1) L = Some (Some l)) by (rewrite E3, PL, nth_app_new; unfold L; rewrite Nat.eqb_refl; reflexivity).
  assert (HO : forall c p n, c <> a -> nth_error (objects m) c = Some (Some (Some p, n)) -> nth_error (heap m1) p = nth_error (heap m) p).
  { intros c p n Hc Ec. rewrite E3, (Own _ _ _ Hc Ec). apply nth_error_app1. exact (Old _ _ _ Ec). }
  split.
  - constructor; cbn [heap objects].
    + intros c p n. rewrite N. intros F. cases.
      * injection F as <- <-. exists l. auto.
      * rewrite (HO _ _ _ n0 F). eapply i_owns; eauto.
    + intros c e p n j. rewrite !N. intros F1 F2. cases; try reflexivity.
      all: first [injection F1 as <- <-; pose proof (Old _ _ _ F2); lia|injection F2 as <- <-; pose proof (Old _ _ _ F1); lia|eapply i_inj; eauto].
    + intros p q. rewrite E3. destruct (points d p) eqn:F; [discriminate|]. rewrite nth_app_new. fold L. destruct (Nat.eqb_spec p L) as [->|].
      * intros _. exists a, (length l). rewrite N, Nat.eqb_refl. reflexivity.
      * intros F2. destruct (i_leak m H _ _ F2) as (c & j & F3). exists c, j. rewrite N.
        destruct (Nat.eqb_spec c a) as [->|]; [|exact F3]. rewrite E in F3. injection F3 as ->. unfold points in F. cbn in F. rewrite Nat.eqb_refl in F. discriminate.
  - destruct (abs_upd m a (Some (A_array l)) _ E) as (s & Hs & Ns). rewrite Hs. f_equal. apply list_ext. intros c. rewrite Ns, !abs_nth. cbn [heap objects]. rewrite N. cases.
    + cbn. rewrite HL. reflexivity.
    + destruct (nth_error (objects m) c) as [[[[p|] j]|]|] eqn:F; try reflexivity. cbn. rewrite (HO _ _ _ n F). reflexivity.
Qed.
(** Moves: the buffer goes from [src] to [dst], whose block is freed. *)
Lemma move_assign_ok (m : memory) dst src o d : inv m -> object_at m src = Some o -> object_at m dst = Some d -> dst <> src ->
  exists m', (do m1 <- release m (fst d); do m2 <- write_object m1 src (Some (None, snd o)); write_object m2 dst (Some o)) = Some m' /\ inv m' /\
    (do s <- list_upd (abs m) src (Some (A_gone (snd o))); list_upd s dst (view (heap m) (Some o))) = Some (abs m').
Proof.
  intros H E1 E2 Hne. destruct (release_ok m dst d H E2) as (m1 & R1 & R2 & R3). rewrite R1. cbn [bind]. apply object_at_nth in E1, E2.
  unfold write_object. rewrite R2. destruct (upd_exists (objects m) src (Some (None, snd o)) _ E1) as [l1 H1]. rewrite H1. cbn [bind objects heap].
  assert (E3 : nth_error l1 dst = Some (Some d)) by (rewrite (list_upd_nth _ _ _ _ dst H1); cases; congruence).
  destruct (upd_exists l1 dst (Some o) _ E3) as [l2 H2]. rewrite H2. cbn [bind]. eexists. split; [reflexivity|].
  assert (N : forall c, nth_error l2 c = if Nat.eqb c dst then Some (Some o) else if Nat.eqb c src then Some (Some (None, snd o)) else nth_error (objects m) c).
  { intros c. rewrite (list_upd_nth _ _ _ _ c H2), (list_upd_nth _ _ _ _ c H1). reflexivity. }
  assert (Own : forall c p n, c <> dst -> nth_error (objects m) c = Some (Some (Some p, n)) -> points d p = false).
  { intros c p n Hc Ec. unfold points. destruct d as [[q|] j]; [|reflexivity]. cbn [fst]. destruct (Nat.eqb_spec p q) as [->|]; [|reflexivity].
    exfalso. apply Hc. eapply (i_inj m H); eauto. }
  split.
  - constructor; cbn [heap objects].
    + intros c p n. rewrite N, R3. intros F. cases; try discriminate.
      * injection F as ->. rewrite (Own src _ _ (not_eq_sym Hne) E1). eapply i_owns; eauto.
      * rewrite (Own _ _ _ n0 F). eapply i_owns; eauto.
    + intros c e p n j. rewrite !N. intros F1 F2. cases; try reflexivity; try discriminate.
      all: first [injection F1 as ->; exfalso; match goal with K : _ <> _ |- _ => solve [apply K; eapply (i_inj m H); eauto] end
        |injection F2 as ->; exfalso; match goal with K : _ <> _ |- _ => solve [apply K; eapply (i_inj m H); eauto] end|eapply i_inj; eauto].
    + intros p q. rewrite R3. destruct (points d p) eqn:F; [discriminate|]. intros F2. destruct (i_leak m H _ _ F2) as (c & j & F3).
      destruct (Nat.eq_dec c dst) as [->|Hc].
      { rewrite E2 in F3. injection F3 as ->. unfold points in F. cbn in F. rewrite Nat.eqb_refl in F. discriminate. }
      destruct (Nat.eq_dec c src) as [->|Hc2].
      { exists dst, j. rewrite N, Nat.eqb_refl. congruence. }
      exists c, j. rewrite N. cases; congruence.
  - destruct (abs_upd m src (Some (A_gone (snd o))) _ E1) as (s & Hs & Ns). rewrite Hs. cbn [bind].
    destruct (upd_exists s dst (view (heap m) (Some o)) (view (heap m) (Some d))) as [s2 Hs2]; [rewrite Ns; cases; [congruence|rewrite abs_nth, E2; reflexivity]|].
    rewrite Hs2. f_equal. apply list_ext. intros c. rewrite (list_upd_nth _ _ _ _ c Hs2), Ns, !abs_nth. cbn [heap objects]. rewrite N. cases.
    + cbn [option_map]. f_equal. destruct o as [[p|] j]; [|reflexivity]. cbn. rewrite R3, (Own src _ _ (not_eq_sym Hne) E1). reflexivity.
    + reflexivity.
    + destruct (nth_error (objects m) c) as [[[[p|] j]|]|] eqn:F; try reflexivity. cbn. rewrite R3, (Own _ _ _ n F). reflexivity.
Qed.
(** The move constructor. *)
Lemma move_ok (m : memory) src o : inv m -> object_at m src = Some o ->
  exists m', (do m1 <- write_object m src (Some (None, snd o)); Some (construct m1 o)) = Some m' /\ inv m' /\
    (do s <- list_upd (abs m) src (Some (A_gone (snd o))); Some (s ++ [view (heap m) (Some o)])) = Some (abs m').
Proof.
  intros H E1. apply object_at_nth in E1. unfold write_object. destruct (upd_exists (objects m) src (Some (None, snd o)) _ E1) as [l1 H1]. rewrite H1. cbn [bind].
  eexists. split; [reflexivity|]. pose proof (list_upd_length _ _ _ _ H1) as Hlen.
  assert (N : forall c, nth_error (l1 ++ [Some o]) c = if Nat.eqb c (length (objects m)) then Some (Some o) else if Nat.eqb c src then Some (Some (None, snd o)) else nth_error (objects m) c).
  { intros c. rewrite nth_app_new, Hlen, (list_upd_nth _ _ _ _ c H1). reflexivity. }
  assert (Hs : src < length (objects m)) by (apply nth_error_Some; congruence).
  assert (Out : forall c x, nth_error (objects m) c = Some x -> c <> length (objects m)) by (intros c x F ->; rewrite (proj2 (nth_error_None _ _)) in F by lia; discriminate).
  split.
  - unfold construct. constructor; cbn [heap objects].
    + intros c p n. rewrite N. intros F. cases; try discriminate; [injection F as ->|]; eapply i_owns; eauto.
    + intros c e p n j. rewrite !N. intros F1 F2. cases; try reflexivity; try discriminate.
      all: first [injection F1 as ->; exfalso; match goal with K : _ <> _ |- _ => solve [apply K; eapply (i_inj m H); eauto] end
        |injection F2 as ->; exfalso; match goal with K : _ <> _ |- _ => solve [apply K; eapply (i_inj m H); eauto] end|eapply i_inj; eauto].
    + intros p q F2. destruct (i_leak m H _ _ F2) as (c & j & F3). destruct (Nat.eq_dec c src) as [->|Hc].
      * exists (length (objects m)), j. rewrite N, Nat.eqb_refl. congruence.
      * exists c, j. rewrite N. pose proof (Out _ _ F3). cases; congruence.
  - destruct (abs_upd m src (Some (A_gone (snd o))) _ E1) as (s & Hs' & Ns). rewrite Hs'. cbn [bind]. f_equal. pose proof (list_upd_length _ _ _ _ Hs') as Hl. unfold abs in Hl. rewrite map_length in Hl.
    unfold construct. apply list_ext. intros c. rewrite nth_app_new, Hl, Ns, !abs_nth. cbn [heap objects]. rewrite N. cases; reflexivity.
Qed.
(** An element is written. *)
Lemma set_ok (m : memory) a p n l i v l' : inv m -> object_at m a = Some (Some p, n) -> nth_error (heap m) p = Some (Some l) -> list_upd l i v = Some l' ->
  exists h, list_upd (heap m) p (Some l') = Some h /\ inv (mk_memory h (objects m)) /\ list_upd (abs m) a (Some (A_array l')) = Some (abs (mk_memory h (objects m))).
Proof.
  intros H E E1 E2. apply object_at_nth in E. destruct (upd_exists (heap m) p (Some l') _ E1) as [h Hh]. exists h. split; [exact Hh|].
  assert (N : forall q, nth_error h q = if Nat.eqb q p then Some (Some l') else nth_error (heap m) q) by (intros q; apply list_upd_nth; exact Hh).
  pose proof (list_upd_length _ _ _ _ E2) as Hl. split.
  - constructor; cbn [heap objects].
    + intros c q k F. rewrite N. destruct (i_owns m H _ _ _ F) as (j & F1 & F2). cases; [|eauto]. exists l'. split; [reflexivity|]. congruence.
    + intros c e q k j. apply (i_inj m H).
    + intros q k. rewrite N. intros F. cases; [|eapply i_leak; eauto]. exists a, n. exact E.
  - destruct (abs_upd m a (Some (A_array l')) _ E) as (s & Hs & Ns). rewrite Hs. f_equal. apply list_ext. intros c. rewrite Ns, !abs_nth. cbn [heap objects]. cases.
    + rewrite E. cbn. rewrite N, Nat.eqb_refl. reflexivity.
    + destruct (nth_error (objects m) c) as [[[[q|] j]|]|] eqn:F; try reflexivity. cbn. rewrite N. cases; [|reflexivity]. exfalso. apply n0. eapply (i_inj m H); eauto.
Qed.
End Refine.
Section Steps.
Context {T : Type}.
Variable z : T.
Notation memory := (memory T).
Lemma view_value (m : memory) a o v : inv m -> object_at m a = Some o -> value_at (abs m) a = Some v -> view (heap m) (Some o) = Some v /\ length_of v = snd o.
Proof.
  intros H E1 E2. pose proof (alive m a H) as K. rewrite E1, E2 in K. destruct o as [[p|] n], v as [l|k]; try contradiction; cbn.
  - destruct K as [K1 K2]. rewrite K1. auto.
  - subst. auto.
Qed.
Lemma step_ok (m : memory) op : inv m ->
  match execute z m op, perform z (abs m) op with
  | Some m', Some s => inv m' /\ abs m' = s
  | None, None => True
  | _, _ => False
  end.
Proof.
  intros H.
  assert (AV : forall a, (object_at m a = None /\ value_at (abs m) a = None) \/ exists o v, object_at m a = Some o /\ value_at (abs m) a = Some v).
  { intros a. pose proof (alive m a H) as K. destruct (object_at m a) as [[[p|] n]|], (value_at (abs m) a) as [[l|k]|]; try contradiction; eauto. }
  destruct op as [|n|n v|src|src|dst src|dst src|a b|a i v|a]; cbn [execute perform].
  - split.
    + destruct H as [H1 H2 H3]. unfold construct. constructor; cbn [heap objects].
      * intros a p n. rewrite nth_app_new. intros E. destruct (Nat.eqb a (length (objects m))); [discriminate|eauto].
      * intros a b p n k. rewrite !nth_app_new. intros E1 E2. destruct (Nat.eqb a _); [discriminate|]. destruct (Nat.eqb b _); [discriminate|eauto].
      * intros p l E. destruct (H3 _ _ E) as (a & n & E1). exists a, n. apply nth_old. exact E1.
    + unfold construct, abs. cbn [heap objects]. rewrite map_app. reflexivity.
  - pose proof (new_inv m (repeat z n) H) as K. rewrite repeat_length in K. exact K.
  - pose proof (new_inv m (repeat v n) H) as K. rewrite repeat_length in K. exact K.
  - destruct (AV src) as [[E1 E2]|(o & v & E1 & E2)]; rewrite E1, E2; cbn [bind]; [exact I|].
    pose proof (copied_copy m src o v H E1 E2) as K. destruct (copied m o) as [l|], (copy_of v) as [[k|k]|]; try contradiction; cbn [bind]; [|exact I].
    destruct K as [<- K]. rewrite <- K. exact (new_inv m l H).
  - destruct (AV src) as [[E1 E2]|(o & v & E1 & E2)]; rewrite E1, E2; cbn [bind]; [exact I|].
    destruct (view_value m src o v H E1 E2) as [V1 V2]. rewrite V2. destruct (move_ok m src o H E1) as (m' & -> & K1 & K2). rewrite V1 in K2. rewrite K2. auto.
  - destruct (AV src) as [[E1 E2]|(o & v & E1 & E2)]; rewrite E1, E2; cbn [bind]; [exact I|].
    destruct (AV dst) as [[F1 F2]|(d & w & F1 & F2)]; rewrite F1, F2; cbn [bind]; [exact I|].
    pose proof (copied_copy m src o v H E1 E2) as K. destruct (copied m o) as [l|], (copy_of v) as [[k|k]|]; try contradiction; cbn [bind]; [|exact I].
    destruct K as [<- K]. rewrite <- K. destruct (assign_ok m dst d l H F1) as (m' & E3 & K1 & K2). unfold allocate in *. cbn [fst snd] in E3. rewrite E3, K2. auto.
  - destruct (AV src) as [[E1 E2]|(o & v & E1 & E2)]; rewrite E1, E2; cbn [bind]; [exact I|].
    destruct (AV dst) as [[F1 F2]|(d & w & F1 & F2)]; rewrite F1, F2; cbn [bind]; [exact I|].
    destruct (Nat.eqb_spec dst src) as [E|E]; [auto|]. destruct (view_value m src o v H E1 E2) as [V1 V2]. rewrite V2.
    destruct (move_assign_ok m dst src o d H E1 F1 E) as (m' & -> & K1 & K2). rewrite V1 in K2. rewrite K2. auto.
  - destruct (AV a) as [[E1 E2]|(o & v & E1 & E2)]; rewrite E1, E2; cbn [bind]; [exact I|].
    destruct (AV b) as [[F1 F2]|(d & w & F1 & F2)]; rewrite F1, F2; cbn [bind]; [exact I|].
    destruct (swap_ok m a b o d H E1 F1) as (m' & -> & K1 & K2 & K3).
    destruct (view_value m a o v H E1 E2) as [V1 _], (view_value m b d w H F1 F2) as [W1 _]. apply object_at_nth in E1, F1.
    destruct (abs_upd m a (Some w) _ E1) as (s & Hs & Ns). rewrite Hs. cbn [bind].
    assert (X : exists x, nth_error s b = Some x) by (rewrite Ns; destruct (Nat.eqb b a); [eauto|rewrite abs_nth, F1; cbn; eauto]). destruct X as [x X].
    destruct (upd_exists s b (Some v) _ X) as [s2 Hs2]. rewrite Hs2. split; [exact K1|]. apply list_ext. intros c. rewrite (list_upd_nth _ _ _ _ c Hs2), Ns, !abs_nth, K2, K3.
    destruct (Nat.eqb c b); [cbn [option_map]; rewrite V1; reflexivity|]. destruct (Nat.eqb c a); [cbn [option_map]; rewrite W1; reflexivity|reflexivity].
  - pose proof (alive m a H) as K. destruct (object_at m a) as [[[p|] n]|] eqn:E1, (value_at (abs m) a) as [[l|k]|] eqn:E2; try contradiction; cbn [bind fst]; try exact I.
    destruct K as [K1 K2]. unfold block. cbn [bind]. rewrite K1. cbn [bind]. destruct (list_upd l i v) as [l'|] eqn:E3; cbn [bind]; [|exact I].
    destruct (set_ok m a p n l i v l' H E1 K1 E3) as (h & -> & K3 & K4). cbn [bind]. rewrite K4. auto.
  - destruct (AV a) as [[E1 E2]|(o & v & E1 & E2)]; rewrite E1, E2; cbn [bind]; [exact I|].
    destruct (destroy_ok m a o H E1) as (m' & -> & K1 & ->). auto.
Qed.
Lemma run_ok ops : forall m : memory, inv m ->
  match execute_all z m ops, perform_all z (abs m) ops with
  | Some m', Some s => inv m' /\ abs m' = s
  | None, None => True
  | _, _ => False
  end.
Proof.
  induction ops as [|op ops IH]; intros m H; cbn [execute_all perform_all]; [auto|].
  pose proof (step_ok m op H) as K. destruct (execute z m op) as [m'|], (perform z (abs m) op) as [s|]; try contradiction; cbn [bind]; [|exact I].
  destruct K as [K <-]. apply IH. exact K.
Qed.
(** What can be read. *)
Lemma get_value (m : memory) a i : inv m -> get m a i = match value_at (abs m) a with Some (A_array l) => nth_error l i | _ => None end.
Proof.
  intros H. unfold get. pose proof (alive m a H) as K. destruct (object_at m a) as [[[p|] n]|], (value_at (abs m) a) as [[l|k]|]; try contradiction; cbn [bind fst block]; try reflexivity.
  destruct K as [-> _]. reflexivity.
Qed.
Lemma size_value (m : memory) a : inv m -> size m a = option_map length_of (value_at (abs m) a).
Proof.
  intros H. unfold size. pose proof (alive m a H) as K. destruct (object_at m a) as [[[p|] n]|], (value_at (abs m) a) as [[l|k]|]; try contradiction; cbn; try reflexivity.
  - destruct K as [_ K]. congruence.
  - congruence.
Qed.
Lemma empty_value (m : memory) a : inv m -> empty m a = option_map (fun v => match v with A_array l => Nat.eqb (length l) 0 | A_gone _ => true end) (value_at (abs m) a).
Proof.
  intros H. unfold empty. pose proof (alive m a H) as K. destruct (object_at m a) as [[[p|] n]|], (value_at (abs m) a) as [[l|k]|]; try contradiction; cbn; try reflexivity.
  destruct K as [_ K]. congruence.
Qed.
Lemma buffer_value (m : memory) a : inv m -> has_buffer m a = option_map (fun v => match v with A_array l => true | A_gone _ => false end) (value_at (abs m) a).
Proof.
  intros H. unfold has_buffer. pose proof (alive m a H) as K. destruct (object_at m a) as [[[p|] n]|], (value_at (abs m) a) as [[l|k]|]; try contradiction; reflexivity.
Qed.
Lemma elements_value (m : memory) a : inv m -> elements m a = match value_at (abs m) a with Some v => match copy_of v with Some (A_array l) => Some l | _ => None end | None => None end.
Proof.
  intros H. unfold elements. destruct (object_at m a) as [o|] eqn:E1.
  - destruct (value_at (abs m) a) as [v|] eqn:E2; [|pose proof (alive m a H) as K; rewrite E1, E2 in K; destruct o as [[p|] n]; contradiction].
    pose proof (copied_copy m a o v H E1 E2) as K. cbn [bind]. destruct (copied m o), (copy_of v) as [[k|k]|]; try contradiction; [|reflexivity]. destruct K as [-> _]. reflexivity.
  - pose proof (alive m a H) as K. rewrite E1 in K. destruct (value_at (abs m) a); [contradiction|reflexivity].
Qed.
(** *** The blocks in use are the ones of the arrays *)
Definition is_live (b : option (option (list T))) : bool := match b with Some (Some _) => true | _ => false end.
Lemma live_seq (h : list (option (list T))) : length (filter (fun b => match b with Some _ => true | None => false end) h) =
  length (filter (fun p => is_live (nth_error h p)) (seq 0 (length h))).
Proof.
  induction h as [|b h IH]; [reflexivity|]. cbn [length filter]. rewrite <- cons_seq. cbn [filter nth_error].
  assert (E : length (filter (fun p => is_live (nth_error (b :: h) p)) (seq 1 (length h))) = length (filter (fun p => is_live (nth_error h p)) (seq 0 (length h)))).
  { rewrite <- seq_shift. clear. induction (seq 0 (length h)) as [|x l IH]; [reflexivity|]. cbn [map filter nth_error]. destruct (is_live (nth_error h x)); cbn [length]; rewrite IH; reflexivity. }
  destruct b; cbn [is_live length]; rewrite E, IH; reflexivity.
Qed.
Definition pointers (l : list (option object)) : list nat := flat_map (fun o => match o with Some (Some p, _) => [p] | _ => [] end) l.
Lemma pointers_in l p : In p (pointers l) <-> exists a n, nth_error l a = Some (Some (Some p, n)).
Proof.
  unfold pointers. rewrite in_flat_map. split.
  - intros (o & H1 & H2). destruct o as [[[q|] n]|]; try destruct H2. subst q. apply In_nth_error in H1. destruct H1 as [a H1]. eauto. destruct H.
  - intros (a & n & H). exists (Some (Some p, n)). split; [eapply nth_error_In; eauto|left; reflexivity].
Qed.
Lemma pointers_nodup l : (forall a b p n k, nth_error l a = Some (Some (Some p, n)) -> nth_error l b = Some (Some (Some p, k)) -> a = b) -> NoDup (pointers l).
Proof.
  induction l as [|o l IH]; intros H; [constructor|]. cbn.
  assert (N : NoDup (pointers l)) by (apply IH; intros a b p n k E1 E2; specialize (H (S a) (S b) p n k E1 E2); lia).
  destruct o as [[[p|] n]|]; try exact N. cbn. constructor; [|exact N]. intros K. apply pointers_in in K. destruct K as (a & k & K).
  specialize (H 0 (S a) p n k eq_refl K). discriminate.
Qed.
Lemma in_use (m : memory) : inv m -> blocks_in_use m = with_buffer (abs m).
Proof.
  intros H. unfold blocks_in_use. rewrite live_seq.
  assert (E : with_buffer (abs m) = length (pointers (objects m))).
  { unfold with_buffer, abs. assert (Own : forall p n, In (Some (Some p, n)) (objects m) -> is_live (nth_error (heap m) p) = true).
    { intros p n K. apply In_nth_error in K. destruct K as [a K]. destruct (i_owns m H _ _ _ K) as (l & -> & _). reflexivity. }
    revert Own. induction (objects m) as [|o l IH]; intros Own; [reflexivity|]. cbn [map filter].
    assert (IH' : length (filter (fun v => match v with Some (A_array _) => true | _ => false end) (map (view (heap m)) l)) = length (pointers l)) by (apply IH; intros p n K; eapply Own; right; exact K).
    destruct o as [[[p|] n]|]; cbn [view]; try exact IH'. pose proof (Own p n (or_introl eq_refl)) as K. unfold is_live in K.
    destruct (nth_error (heap m) p) as [[b|]|]; try discriminate. cbn [length pointers flat_map app]. f_equal. exact IH'. }
  rewrite E. apply Nat.le_antisymm; apply NoDup_incl_length.
  - apply NoDup_filter. apply seq_NoDup.
  - intros p K. apply filter_In in K. destruct K as [_ K]. apply pointers_in. unfold is_live in K. destruct (nth_error (heap m) p) as [[b|]|] eqn:F; try discriminate. eapply i_leak; eauto.
  - apply pointers_nodup. apply (i_inj m H).
  - intros p K. apply pointers_in in K. destruct K as (a & n & K). destruct (i_owns m H _ _ _ K) as (l & F & _). apply filter_In. split.
    + apply in_seq. assert (p < length (heap m)) by (apply nth_error_Some; congruence). lia.
    + rewrite F. reflexivity.
Qed.
End Steps.
(** *** Arrays of two dimensions *)
Section Two.
Context {T : Type}.
Variable z : T.
Open Scope Z_scope.
Notation array2 := (@array2 T).
Record wf2 (a : array2) : Prop := { w_rows : 0 <= a2_rows a; w_columns : 0 <= a2_columns a; w_size : a2_rows a * a2_columns a < 2 ^ 32;
  w_buffer : exists b, a2_buffer a = Some b /\ a2_rows a * a2_columns a <= Z.of_nat (length b) }.
Lemma u32_small x : 0 <= x < 2 ^ 32 -> u32 x = x.
Proof. intros. unfold u32. apply Z.mod_small. lia. Qed.
Lemma inside_bound rows columns r c : inside rows columns r c -> 0 <= r * columns /\ 0 <= r * columns + c < rows * columns.
Proof. intros [H1 H2]. nia. Qed.
Lemma address_ok (a : array2) r c : wf2 a -> inside (a2_rows a) (a2_columns a) r c -> a2_address a r c = Z.to_nat (r * a2_columns a + c).
Proof.
  intros [H1 H2 H3 _] K. unfold a2_address. pose proof (inside_bound _ _ _ _ K). destruct K. rewrite (u32_small (r * _)) by lia. rewrite u32_small by lia. reflexivity.
Qed.
Lemma valid_inside (a : array2) r c : 0 <= r -> 0 <= c -> a2_valid a r c = true <-> inside (a2_rows a) (a2_columns a) r c.
Proof. intros. unfold a2_valid, inside. rewrite andb_true_iff, !Z.ltb_lt. lia. Qed.
Lemma inside_valid (a : array2) r c : inside (a2_rows a) (a2_columns a) r c -> a2_valid a r c = true.
Proof. intros H. apply valid_inside; try exact H; destruct H; lia. Qed.
Lemma outside_get (a : array2) r c : 0 <= r -> 0 <= c -> ~ inside (a2_rows a) (a2_columns a) r c -> a2_get a r c = Throw /\ forall v, a2_set a r c v = Throw.
Proof.
  intros H1 H2 H. unfold a2_get, a2_set. destruct (a2_valid a r c) eqn:E; [|auto]. exfalso. apply H. apply valid_inside; assumption.
Qed.
Lemma same_address rows columns r c r' c' : inside rows columns r c -> inside rows columns r' c' -> Z.to_nat (r * columns + c) = Z.to_nat (r' * columns + c') -> r = r' /\ c = c'.
Proof.
  intros H K E. pose proof (inside_bound _ _ _ _ H). pose proof (inside_bound _ _ _ _ K). apply Z2Nat.inj in E; try lia. destruct H as [_ H], K as [_ K].
  assert (r = r') by nia. subst. lia.
Qed.
Lemma get_ok (a : array2) r c : wf2 a -> inside (a2_rows a) (a2_columns a) r c -> exists v, a2_get a r c = Ok v.
Proof.
  intros H K. unfold a2_get. rewrite inside_valid by exact K. rewrite address_ok by assumption. destruct H as [H1 H2 H3 (b & -> & H4)]. cbn [bind].
  pose proof (inside_bound _ _ _ _ K). destruct (nth_error b _) eqn:E; [cbn; eauto|]. apply nth_error_None in E. lia.
Qed.
Lemma set_ok2 a r c v : wf2 a -> inside (a2_rows a) (a2_columns a) r c ->
  exists a', a2_set a r c v = Ok a' /\ wf2 a' /\ a2_rows a' = a2_rows a /\ a2_columns a' = a2_columns a /\
  forall r' c', inside (a2_rows a) (a2_columns a) r' c' -> a2_get a' r' c' = if (r' =? r) && (c' =? c) then Ok v else a2_get a r' c'.
Proof.
  intros H K. unfold a2_set. rewrite inside_valid by exact K. pose proof H as HH. destruct H as [H1 H2 H3 (b & E & H4)]. rewrite E. cbn [bind].
  pose proof (inside_bound _ _ _ _ K) as B. assert (X : exists x, nth_error b (a2_address a r c) = Some x).
  { rewrite address_ok by assumption. destruct (nth_error b _) eqn:F; [eauto|]. apply nth_error_None in F. lia. }
  destruct X as [x X]. destruct (upd_exists b (a2_address a r c) v x X) as [b' Hb]. rewrite Hb. cbn [bind of_opt]. eexists. split; [reflexivity|].
  assert (W : wf2 (mk_array2 (Some b') (a2_rows a) (a2_columns a))).
  { constructor; cbn [a2_rows a2_columns a2_buffer]; try assumption. exists b'. split; [reflexivity|]. rewrite (list_upd_length _ _ _ _ Hb). exact H4. }
  split; [exact W|]. split; [reflexivity|]. split; [reflexivity|]. intros r' c' I. unfold a2_get. rewrite (inside_valid a r' c') by exact I. rewrite inside_valid by exact I.
  rewrite (address_ok (mk_array2 _ _ _)) by assumption. cbn [a2_rows a2_columns a2_buffer bind]. rewrite (list_upd_nth _ _ _ _ _ Hb), E. cbn [bind].
  rewrite !address_ok by assumption.
  destruct (Nat.eqb_spec (Z.to_nat (r' * a2_columns a + c')) (Z.to_nat (r * a2_columns a + c))) as [Q|Q].
  - destruct (same_address _ _ _ _ _ _ I K Q) as [-> ->]. rewrite !Z.eqb_refl. reflexivity.
  - destruct (Z.eqb_spec r' r) as [->|]; [|reflexivity]. destruct (Z.eqb_spec c' c) as [->|]; [congruence|reflexivity].
Qed.
Lemma writes_ok w : forall a, wf2 a -> Forall (fun x => inside (a2_rows a) (a2_columns a) (fst (fst x)) (snd (fst x))) w ->
  exists a', write_all a w = Ok a' /\ wf2 a' /\ a2_rows a' = a2_rows a /\ a2_columns a' = a2_columns a /\
  forall r c d, inside (a2_rows a) (a2_columns a) r c -> a2_get a r c = Ok d -> a2_get a' r c = Ok (cell_after d w r c).
Proof.
  induction w as [|[[r c] v] w IH]; intros a H F; cbn [write_all cell_after].
  - exists a. auto.
  - inversion F as [|? ? F1 F2]; subst. cbn [fst snd] in F1. destruct (set_ok2 a r c v H F1) as (a1 & -> & W & E1 & E2 & G). cbn [obind].
    destruct (IH a1 W) as (a' & -> & W' & E3 & E4 & G'). { rewrite E1, E2. exact F2. }
    exists a'. split; [reflexivity|]. split; [exact W'|]. split; [congruence|]. split; [congruence|]. intros r' c' d I D. apply G'; [rewrite E1, E2; exact I|].
    rewrite G by exact I. destruct ((r' =? r) && (c' =? c)); [reflexivity|exact D].
Qed.
Lemma fill_wf rows columns (v : T) : 0 <= rows -> 0 <= columns -> rows * columns < 2 ^ 32 -> wf2 (a2_fill rows columns v).
Proof.
  intros. constructor; cbn [a2_fill a2_rows a2_columns a2_buffer]; try assumption. eexists. split; [reflexivity|]. rewrite repeat_length, Z.mul_comm. rewrite u32_small by nia. nia.
Qed.
Lemma fill_get rows columns (v : T) r c : 0 <= rows -> 0 <= columns -> rows * columns < 2 ^ 32 -> inside rows columns r c -> a2_get (a2_fill rows columns v) r c = Ok v.
Proof.
  intros H1 H2 H3 I. pose proof (fill_wf rows columns v H1 H2 H3) as W. destruct (get_ok _ r c W I) as [x E]. rewrite E. f_equal. unfold a2_get in E. rewrite inside_valid in E by exact I.
  cbn [a2_fill a2_buffer bind] in E. destruct (nth_error _ _) eqn:F in E; [|discriminate]. apply nth_error_In in F. apply repeat_spec in F. cbn in E. congruence.
Qed.
Lemma firstn_nth (l : list T) : forall n i, (i < n)%nat -> nth_error (firstn n l) i = nth_error l i.
Proof. induction l as [|x l IH]; intros n i H; destruct n, i; try lia; try reflexivity. cbn. apply IH. lia. Qed.
Lemma copy_ok (o : array2) : wf2 o -> a2_rows o <= a2_columns o -> a2_columns o * a2_columns o < 2 ^ 32 ->
  exists a, a2_assign_copy z o = Ok a /\ wf2 a /\ a2_rows a = a2_rows o /\ a2_columns a = a2_columns o /\
  forall r c, 0 <= r -> 0 <= c -> a2_get a r c = a2_get o r c.
Proof.
  intros H L Q. pose proof H as HH. destruct H as [H1 H2 H3 (b & E & H4)].
  assert (S1 : a2_size o = a2_rows o * a2_columns o) by (unfold a2_size; rewrite u32_small; nia).
  assert (S2 : u32 (a2_columns o * a2_columns o) = a2_columns o * a2_columns o) by (apply u32_small; nia).
  assert (LL : a2_rows o * a2_columns o <= a2_columns o * a2_columns o) by nia.
  assert (P0 : 0 <= a2_rows o * a2_columns o) by nia.
  assert (X : exists t, a2_assign_copy z o = Ok (mk_array2 (Some t) (a2_rows o) (a2_columns o)) /\ a2_rows o * a2_columns o <= Z.of_nat (length t) /\
    forall i, (i < Z.to_nat (a2_rows o * a2_columns o))%nat -> nth_error t i = nth_error b i).
  { unfold a2_assign_copy. rewrite S1, S2. destruct (Z.to_nat (a2_rows o * a2_columns o)) as [|n] eqn:N.
    - eexists. split; [reflexivity|]. rewrite repeat_length. split; [lia|]. intros i Hi. lia.
    - rewrite <- N. rewrite E. cbn [bind]. rewrite (proj2 (Nat.leb_le (Z.to_nat (a2_rows o * a2_columns o)) (length b))) by lia.
      rewrite (proj2 (Nat.leb_le (Z.to_nat (a2_rows o * a2_columns o)) (Z.to_nat (a2_columns o * a2_columns o)))) by lia. cbn [andb of_opt]. eexists. split; [reflexivity|].
      rewrite app_length, repeat_length, firstn_length. split; [lia|]. intros i Hi. rewrite nth_error_app1 by (rewrite firstn_length; lia). apply firstn_nth. lia. }
  destruct X as (t & -> & X1 & X2). eexists. split; [reflexivity|].
  assert (W : wf2 (mk_array2 (Some t) (a2_rows o) (a2_columns o))) by (constructor; cbn [a2_rows a2_columns a2_buffer]; eauto).
  split; [exact W|]. split; [reflexivity|]. split; [reflexivity|]. intros r c R C. unfold a2_get. change (a2_valid (mk_array2 (Some t) (a2_rows o) (a2_columns o)) r c) with (a2_valid o r c).
  destruct (a2_valid o r c) eqn:V; [|reflexivity]. apply valid_inside in V; try assumption. rewrite !address_ok by assumption. cbn [a2_buffer a2_columns bind]. rewrite E. cbn [bind].
  rewrite X2; [reflexivity|]. pose proof (inside_bound _ _ _ _ V). lia.
Qed.
(** assign *)
Lemma assign_writes cells : forall l (a : array2), l <> [] -> a2_assign_cells cells l a = write_all a (map (fun p => (fst (fst p), snd (fst p), snd p)) (combine cells l)).
Proof.
  induction cells as [|[r c] cells IH]; intros l a H; [reflexivity|]. destruct l as [|v l]; [contradiction|]. cbn [a2_assign_cells combine map write_all fst snd].
  destruct (a2_set a r c v) as [a'| |]; cbn [obind]; try reflexivity. destruct l as [|x l]; [destruct cells; reflexivity|]. apply IH. discriminate.
Qed.
Lemma zseq_length n : length (zseq n) = Z.to_nat n.
Proof. unfold zseq. rewrite map_length, seq_length. reflexivity. Qed.
Lemma zseq_nth n i : (i < Z.to_nat n)%nat -> nth_error (zseq n) i = Some (Z.of_nat i).
Proof. intros H. unfold zseq. erewrite map_nth_error; [reflexivity|]. rewrite (nth_error_nth' _ 0%nat) by (rewrite seq_length; exact H). rewrite seq_nth by exact H. reflexivity. Qed.
Lemma concat_nth {A B} (f : A -> list B) w : forall l, (forall x, In x l -> length (f x) = w) -> forall i j x, nth_error l i = Some x -> (j < w)%nat ->
  nth_error (concat (map f l)) (i * w + j) = nth_error (f x) j.
Proof.
  induction l as [|y l IH]; intros F i j x E J; [destruct i; discriminate|]. cbn [map concat]. destruct i as [|i]; cbn [nth_error] in E.
  - injection E as ->. cbn. apply nth_error_app1. rewrite F by (left; reflexivity). exact J.
  - rewrite nth_error_app2 by (rewrite F by (left; reflexivity); lia). rewrite F by (left; reflexivity). replace (S i * w + j - w)%nat with (i * w + j)%nat by lia. apply IH; try assumption. intros; apply F; right; assumption.
Qed.
Lemma concat_length {A B} (f : A -> list B) w : forall l, (forall x, In x l -> length (f x) = w) -> length (concat (map f l)) = (length l * w)%nat.
Proof. induction l as [|y l IH]; intros F; [reflexivity|]. cbn [map concat]. rewrite app_length, F, IH by (try (intros; apply F; right; assumption); left; reflexivity). reflexivity. Qed.
Lemma cells_nth (a : array2) r c : inside (a2_rows a) (a2_columns a) r c -> nth_error (a2_cells a) (Z.to_nat (r * a2_columns a + c)) = Some (r, c).
Proof.
  intros I. pose proof (inside_bound _ _ _ _ I) as B. destruct I as [R C]. unfold a2_cells.
  replace (Z.to_nat (r * a2_columns a + c)) with (Z.to_nat r * Z.to_nat (a2_columns a) + Z.to_nat c)%nat by (rewrite Z2Nat.inj_add, Z2Nat.inj_mul by lia; reflexivity).
  rewrite (concat_nth _ (Z.to_nat (a2_columns a)) _) with (x := r).
  - rewrite (map_nth_error _ _ _ (zseq_nth (a2_columns a) (Z.to_nat c) ltac:(lia))). rewrite Z2Nat.id by lia. reflexivity.
  - intros x _. rewrite map_length. apply zseq_length.
  - rewrite zseq_nth by lia. rewrite Z2Nat.id by lia. reflexivity.
  - lia.
Qed.
Lemma cells_inside (a : array2) i r c : nth_error (a2_cells a) i = Some (r, c) -> inside (a2_rows a) (a2_columns a) r c.
Proof.
  intros E. apply nth_error_In in E. unfold a2_cells in E. apply in_concat in E. destruct E as (l & H1 & H2). apply in_map_iff in H1. destruct H1 as (x & <- & H1).
  apply in_map_iff in H2. destruct H2 as (y & H2 & H3). injection H2 as -> ->. unfold zseq in *. apply in_map_iff in H1, H3. destruct H1 as (k & <- & K), H3 as (j & <- & J).
  apply in_seq in K, J. unfold inside. lia.
Qed.
Lemma cells_length (a : array2) : 0 <= a2_rows a -> 0 <= a2_columns a -> length (a2_cells a) = Z.to_nat (a2_rows a * a2_columns a).
Proof. intros. unfold a2_cells. rewrite (concat_length _ (Z.to_nat (a2_columns a))) by (intros; rewrite map_length; apply zseq_length). rewrite zseq_length, Z2Nat.inj_mul by lia. reflexivity. Qed.
Lemma cells_index (a : array2) i r c : 0 <= a2_rows a -> 0 <= a2_columns a -> nth_error (a2_cells a) i = Some (r, c) -> i = Z.to_nat (r * a2_columns a + c).
Proof.
  intros R C E. assert (L : (i < length (a2_cells a))%nat) by (apply nth_error_Some; congruence). rewrite cells_length in L by assumption.
  assert (P : 0 < a2_columns a) by nia.
  set (k := Z.of_nat i) in *. assert (I : inside (a2_rows a) (a2_columns a) (k / a2_columns a) (k mod a2_columns a)).
  { pose proof (Z.mod_pos_bound k _ P). split; [split; [apply Z.div_pos; lia|apply Z.div_lt_upper_bound; try lia; subst k; nia]|assumption]. }
  pose proof (cells_nth a _ _ I) as N. rewrite (Z.mul_comm (k / _)), <- Z.div_mod in N by lia. subst k. rewrite Nat2Z.id in N. rewrite N in E. injection E as <- <-.
  rewrite (Z.mul_comm (_ / _)), <- Z.div_mod by lia. rewrite Nat2Z.id. reflexivity.
Qed.
Lemma cell_after_nodup w : forall (d : T) r c, NoDup (map fst w) -> cell_after d w r c = match find (fun x => (r =? fst (fst x)) && (c =? snd (fst x))) w with Some x => snd x | None => d end.
Proof.
  induction w as [|[[r' c'] v] w IH]; intros d r c N; [reflexivity|]. cbn [map fst] in N. inversion N as [|? ? N1 N2]; subst. cbn [cell_after find fst snd]. rewrite IH by exact N2.
  destruct ((r =? r') && (c =? c')) eqn:E; [|reflexivity]. destruct (find _ w) as [[[r2 c2] v2]|] eqn:F; [|reflexivity]. exfalso. apply find_some in F. destruct F as [F1 F2]. cbn [fst snd] in F2.
  apply andb_prop in E, F2. rewrite !Z.eqb_eq in E, F2. apply N1. apply in_map_iff. exists (r2, c2, v2). split; [cbn; f_equal; lia|exact F1].
Qed.
Lemma assign_ok2 (a : array2) l : wf2 a -> l <> [] -> exists a', a2_assign l a = Ok a' /\ wf2 a' /\ a2_rows a' = a2_rows a /\ a2_columns a' = a2_columns a /\ forall r c, inside (a2_rows a) (a2_columns a) r c -> a2_get a' r c = match nth_error l (Z.to_nat (r * a2_columns a + c)) with Some v => Ok v | None => a2_get a r c end.
Proof.
  intros H NE. unfold a2_assign. rewrite assign_writes by exact NE. set (w := map _ (combine (a2_cells a) l)).
  assert (WN : forall k r c v, nth_error w k = Some (r, c, v) <-> nth_error (a2_cells a) k = Some (r, c) /\ nth_error l k = Some v).
  { intros k r c v. unfold w. rewrite nth_error_map. assert (CN : forall (x : list (Z * Z)) (y : list T) k, nth_error (combine x y) k = match nth_error x k, nth_error y k with Some p, Some q => Some (p, q) | _, _ => None end).
    { induction x as [|p x IH]; intros y j; [destruct j; reflexivity|]. destruct y as [|q y]; [destruct j; [reflexivity|]; cbn; destruct (nth_error x j); reflexivity|]. destruct j; [reflexivity|]. cbn. apply IH. }
    rewrite CN. destruct (nth_error (a2_cells a) k) as [[r1 c1]|]; destruct (nth_error l k) as [v1|]; cbn; split; intros Q; try discriminate; try (destruct Q; discriminate).
    - injection Q as -> -> ->. auto.
    - destruct Q as [Q1 Q2]. congruence. }
  assert (In1 : Forall (fun x => inside (a2_rows a) (a2_columns a) (fst (fst x)) (snd (fst x))) w).
  { apply Forall_forall. intros [[r c] v] I. apply In_nth_error in I. destruct I as [k I]. apply WN in I. cbn. eapply cells_inside. apply I. }
  destruct (writes_ok w a H In1) as (a' & E & W & E1 & E2 & G). exists a'. split; [exact E|]. split; [exact W|]. split; [exact E1|]. split; [exact E2|].
  intros r c I. destruct (get_ok a r c H I) as [d D]. rewrite (G r c d I D). destruct H as [R C _ _]. rewrite cell_after_nodup.
  - destruct (find _ w) as [[[r1 c1] v1]|] eqn:F.
    + apply find_some in F. destruct F as [F1 F2]. cbn [fst snd] in F2. apply andb_prop in F2. rewrite !Z.eqb_eq in F2. destruct F2 as [-> ->]. apply In_nth_error in F1. destruct F1 as [k F1]. apply WN in F1. destruct F1 as [F1 F2].
      apply cells_index in F1; try assumption. subst k. rewrite F2. reflexivity.
    + destruct (nth_error l _) as [v|] eqn:N; [|rewrite D; reflexivity]. exfalso. assert (K : nth_error w (Z.to_nat (r * a2_columns a + c)) = Some (r, c, v)) by (apply WN; split; [apply cells_nth; exact I|exact N]).
      apply nth_error_In in K. pose proof (find_none _ _ F _ K) as Q. cbn [fst snd] in Q. rewrite !Z.eqb_refl in Q. discriminate.
  - apply NoDup_nth_error. intros i j Hi Q. rewrite map_length in Hi. rewrite !nth_error_map in Q. destruct (nth_error w i) as [[[ri ci] vi]|] eqn:Ni; [|apply nth_error_None in Ni; lia].
    destruct (nth_error w j) as [[[rj cj] vj]|] eqn:Nj; [|discriminate]. cbn in Q. injection Q as -> ->. apply WN in Ni, Nj. destruct Ni as [Ni _], Nj as [Nj _].
    apply cells_index in Ni, Nj; try assumption. congruence.
Qed.
Lemma size_ok (a : array2) : wf2 a -> a2_size a = a2_rows a * a2_columns a /\ a2_empty a = (a2_rows a * a2_columns a =? 0).
Proof. intros [R C S _]. unfold a2_empty, a2_size. rewrite Z.mul_comm. rewrite u32_small by nia. auto. Qed.
End Two.
