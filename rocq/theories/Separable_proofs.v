(** The first sweep solves separate rows to optimality. *)
From Coq Require Import Permutation Lia.
From Verif Require Import Base Problem_model Problem_spec Merged_model Merged_spec Merged_proofs Classify_model Matrix_model Rows_model Rows_spec Rows_proofs Greedy_spec
  Greedy_proofs Cost_spec Separable_spec.
Open Scope Z_scope.

(** ** Sums over the variables *)
Definition vsum (n : nat) (f : nat -> Z) : Z := fold_right Z.add 0 (map f (seq 0 n)).
Lemma fold_sum_add (f g : nat -> Z) l : fold_right Z.add 0 (map (fun v => f v + g v) l) = fold_right Z.add 0 (map f l) + fold_right Z.add 0 (map g l).
Proof. induction l as [|a l IH]; cbn; lia. Qed.
Lemma vsum_add n f g : vsum n (fun v => f v + g v) = vsum n f + vsum n g.
Proof. apply fold_sum_add. Qed.
Lemma vsum_scale n k f : vsum n (fun v => k * f v) = k * vsum n f.
Proof. unfold vsum. induction (seq 0 n) as [|a l IH]; cbn; lia. Qed.
Lemma vsum_ext n f g : (forall v, (v < n)%nat -> f v = g v) -> vsum n f = vsum n g.
Proof. intros H. unfold vsum. f_equal. apply map_ext_in. intros v Hv. apply in_seq in Hv. apply H. lia. Qed.
Lemma vsum_le n f g : (forall v, (v < n)%nat -> f v <= g v) -> vsum n f <= vsum n g.
Proof.
  intros H. assert (H' : forall v, In v (seq 0 n) -> f v <= g v) by (intros v Hv; apply in_seq in Hv; apply H; lia). clear H.
  unfold vsum. induction (seq 0 n) as [|a l IH]; cbn; [lia|]. pose proof (H' a (or_introl eq_refl)).
  assert (fold_right Z.add 0 (map f l) <= fold_right Z.add 0 (map g l)) by (apply IH; intros; apply H'; right; assumption). lia.
Qed.
Lemma vsum_zero n : vsum n (fun _ => 0) = 0.
Proof. unfold vsum. induction (seq 0 n) as [|a l IH]; cbn; lia. Qed.
Lemma vsum_single n w k (g : nat -> Z) : (w < n)%nat -> vsum n (fun v => k * bz (Nat.eqb w v) * g v) = k * g w.
Proof.
  intros Hw. assert (H : forall m s, (s <= w < s + m)%nat -> fold_right Z.add 0 (map (fun v => k * bz (Nat.eqb w v) * g v) (seq s m)) = k * g w).
  { assert (Hz : forall m s, (w < s)%nat -> fold_right Z.add 0 (map (fun v => k * bz (Nat.eqb w v) * g v) (seq s m)) = 0).
    { induction m as [|m IH]; intros s Hs; cbn [seq map fold_right]; [reflexivity|]. rewrite IH by lia. destruct (Nat.eqb_spec w s); [lia|]. cbn. lia. }
    induction m as [|m IH]; intros s Hs; [lia|]. cbn [seq map fold_right]. destruct (Nat.eqb_spec w s) as [<-|].
    - rewrite Hz by lia. cbn. lia.
    - rewrite IH by lia. cbn. lia. }
  apply H. lia.
Qed.
Lemma lin_value_vsum n x l : (forall e, In e l -> (o_var e < n)%nat) ->
  lin_value x l = vsum n (fun v => lin_value (fun u => Nat.eqb u v) l * bz (x v)).
Proof.
  induction l as [|e l IH]; intros H; cbn [lin_value].
  - symmetry. rewrite (vsum_ext _ _ (fun _ => 0)) by (intros; lia). apply vsum_zero.
  - rewrite (vsum_ext n _ (fun v => o_factor e * bz (Nat.eqb (o_var e) v) * bz (x v) + lin_value (fun u => Nat.eqb u v) l * bz (x v))) by (intros; ring).
    rewrite vsum_add, <- IH by (intros; apply H; right; assumption). rewrite vsum_single by (apply H; left; reflexivity). reflexivity.
Qed.
(** The coefficient of [v] in a row. *)
Definition row_coef (l : list felem) (v : nat) : Z := lhs (fun u => Nat.eqb u v) l.
Lemma lhs_vsum n x l : (forall e, In e l -> (f_var e < n)%nat) -> lhs x l = vsum n (fun v => row_coef l v * bz (x v)).
Proof.
  unfold row_coef. induction l as [|e l IH]; intros H; cbn [lhs].
  - symmetry. rewrite (vsum_ext _ _ (fun _ => 0)) by (intros; lia). apply vsum_zero.
  - rewrite (vsum_ext n _ (fun v => f_factor e * bz (Nat.eqb (f_var e) v) * bz (x v) + lhs (fun u => Nat.eqb u v) l * bz (x v))) by (intros; ring).
    rewrite vsum_add, <- IH by (intros; apply H; right; assumption). rewrite vsum_single by (apply H; left; reflexivity). reflexivity.
Qed.
Lemma row_coef_out l v : ~ In v (map f_var l) -> row_coef l v = 0.
Proof.
  unfold row_coef. induction l as [|e l IH]; intros H; cbn [lhs]; [reflexivity|]. cbn [map In] in H.
  rewrite IH by tauto. destruct (Nat.eqb_spec (f_var e) v) as [E|]; [exfalso; apply H; left; exact E|]. cbn. lia.
Qed.
Lemma row_coef_in l e : NoDup (map f_var l) -> In e l -> row_coef l (f_var e) = f_factor e.
Proof.
  induction l as [|d l IH]; intros Hnd []; cbn [map] in Hnd; inversion Hnd as [|? ? Hni Hnd']; subst.
  - unfold row_coef. cbn [lhs]. rewrite Nat.eqb_refl. fold (row_coef l (f_var e)). rewrite row_coef_out by assumption. cbn. lia.
  - unfold row_coef. cbn [lhs]. fold (row_coef l (f_var e)). rewrite IH by assumption.
    destruct (Nat.eqb_spec (f_var d) (f_var e)) as [E|]; [|cbn; lia]. exfalso. apply Hni. rewrite E. apply in_map. assumption.
Qed.

(** ** Certificates: a multiplier for each row *)
Definition disjoint_rows (cs : list merged) : Prop :=
  forall k k' r r' v, nth_error cs k = Some r -> nth_error cs k' = Some r' -> In v (map f_var (m_elements r)) -> In v (map f_var (m_elements r')) -> k = k'.
(** [cost v] is the cost to minimise; [lam] certifies the values of the row. *)
Definition certified (cost : nat -> Z) (x : assignment) (r : merged) (lam : Z) : Prop :=
  (forall e b, In e (m_elements r) ->
     (cost (f_var e) - lam * f_factor e) * bz (x (f_var e)) <= (cost (f_var e) - lam * f_factor e) * bz b) /\
  (forall y : assignment, m_min r <= lhs y (m_elements r) <= m_max r -> lam * lhs x (m_elements r) <= lam * lhs y (m_elements r)).
Fixpoint dual (L : list (Z * merged)) (v : nat) : Z :=
  match L with [] => 0 | (lam, r) :: L' => lam * row_coef (m_elements r) v + dual L' v end.
Lemma dual_sum n L (x : assignment) : (forall lam r e, In (lam, r) L -> In e (m_elements r) -> (f_var e < n)%nat) ->
  vsum n (fun v => dual L v * bz (x v)) = fold_right Z.add 0 (map (fun p => fst p * lhs x (m_elements (snd p))) L).
Proof.
  induction L as [|[lam r] L IH]; intros H; cbn [dual map fold_right fst snd].
  - rewrite (vsum_ext _ _ (fun _ => 0)) by (intros; lia). apply vsum_zero.
  - rewrite (vsum_ext n _ (fun v => lam * (row_coef (m_elements r) v * bz (x v)) + dual L v * bz (x v))) by (intros; ring).
    rewrite vsum_add, vsum_scale, IH by (intros; eapply H; [right|]; eassumption). rewrite <- lhs_vsum; [reflexivity|].
    intros e He. eapply H; [left; reflexivity|exact He].
Qed.
Lemma dual_out L v : (forall lam r, In (lam, r) L -> ~ In v (map f_var (m_elements r))) -> dual L v = 0.
Proof.
  induction L as [|[lam r] L IH]; intros H; cbn [dual]; [reflexivity|].
  rewrite row_coef_out by (eapply H; left; reflexivity). rewrite IH; [lia|]. intros. eapply H. right. eassumption.
Qed.
Lemma dual_in cs : forall L, disjoint_rows cs -> map snd L = cs -> (forall r, In r cs -> NoDup (map f_var (m_elements r))) ->
  forall lam r e, In (lam, r) L -> In e (m_elements r) -> dual L (f_var e) = lam * f_factor e.
Proof.
  induction cs as [|r0 cs IH]; intros L Hd HL Hnd lam r e Hin He; destruct L as [|[lam0 r1] L]; try discriminate; [destruct Hin|].
  cbn in HL. injection HL as -> HL. cbn [dual].
  assert (Hd' : disjoint_rows cs).
  { intros k k' a b v Ha Hb Hva Hvb. specialize (Hd (S k) (S k') a b v Ha Hb Hva Hvb). lia. }
  destruct Hin as [E|Hin].
  - injection E as -> ->. rewrite row_coef_in by (try assumption; apply Hnd; left; reflexivity). rewrite dual_out; [lia|].
    intros lam' r' Hin' Hv. apply (in_map snd) in Hin'. rewrite HL in Hin'. cbn in Hin'. apply In_nth_error in Hin'. destruct Hin' as [k Hk].
    specialize (Hd 0%nat (S k) r r' (f_var e) eq_refl Hk (in_map f_var _ _ He) Hv). lia.
  - rewrite row_coef_out.
    + rewrite (IH L Hd' HL) with (lam := lam) (r := r); try assumption; [lia|]. intros. apply Hnd. right. assumption.
    + intros Hv. apply (in_map snd) in Hin. rewrite HL in Hin. cbn in Hin. apply In_nth_error in Hin. destruct Hin as [k Hk].
      specialize (Hd 0%nat (S k) r0 r (f_var e) eq_refl Hk Hv (in_map f_var _ _ He)). lia.
Qed.
Lemma sum_le_forall {A} (f g : A -> Z) l : (forall a, In a l -> f a <= g a) -> fold_right Z.add 0 (map f l) <= fold_right Z.add 0 (map g l).
Proof.
  induction l as [|a l IH]; intros H; cbn; [lia|]. pose proof (H a (or_introl eq_refl)).
  assert (fold_right Z.add 0 (map f l) <= fold_right Z.add 0 (map g l)) by (apply IH; intros; apply H; right; assumption). lia.
Qed.
(** Weak duality: certified values are optimal. *)
Lemma certified_optimal n cs cost (x y : assignment) :
  (forall r, In r cs -> row_ok n r) -> disjoint_rows cs ->
  (forall r, In r cs -> exists lam, certified cost x r lam) ->
  (forall v b, (v < n)%nat -> (forall r, In r cs -> ~ In v (map f_var (m_elements r))) -> cost v * bz (x v) <= cost v * bz b) ->
  sat_merged y cs -> vsum n (fun v => cost v * bz (x v)) <= vsum n (fun v => cost v * bz (y v)).
Proof.
  intros Hok Hd Hcert Hfree Hy.
  assert (HL : exists L, map snd L = cs /\ forall lam r, In (lam, r) L -> certified cost x r lam).
  { clear -Hcert. induction cs as [|r cs IH]; [exists []; split; [reflexivity|intros ? ? []]|].
    destruct (Hcert r (or_introl eq_refl)) as [lam Hl]. destruct IH as (L & HL & HC); [intros; apply Hcert; right; assumption|].
    exists ((lam, r) :: L). split; [cbn; rewrite HL; reflexivity|]. intros lam' r' [E|Hin]; [injection E as <- <-; exact Hl|apply HC; exact Hin]. }
  destruct HL as (L & HL & HC).
  assert (Hin : forall lam r, In (lam, r) L -> In r cs) by (intros lam r Hi; rewrite <- HL; apply (in_map snd) in Hi; exact Hi).
  assert (Hvar : forall lam r e, In (lam, r) L -> In e (m_elements r) -> (f_var e < n)%nat) by (intros lam r e Hi He; apply (Hok r (Hin _ _ Hi)); exact He).
  assert (Hsplit : forall z : assignment, vsum n (fun v => cost v * bz (z v)) =
     vsum n (fun v => (cost v - dual L v) * bz (z v)) + fold_right Z.add 0 (map (fun p => fst p * lhs z (m_elements (snd p))) L)).
  { intros z. rewrite <- (dual_sum n L z Hvar), <- vsum_add. apply vsum_ext. intros. ring. }
  rewrite (Hsplit x), (Hsplit y). apply Z.add_le_mono.
  - apply vsum_le. intros v Hv.
    assert (Hcase : (exists lam r e, In (lam, r) L /\ In e (m_elements r) /\ f_var e = v) \/ (forall r, In r cs -> ~ In v (map f_var (m_elements r)))).
    { rewrite <- HL. clear. induction L as [|[lam r] L IH]; [right; intros r []|].
      destruct (in_dec Nat.eq_dec v (map f_var (m_elements r))) as [Hi|Hi].
      - left. apply in_map_iff in Hi. destruct Hi as (e & He & Hi). exists lam, r, e. split; [left; reflexivity|]. auto.
      - destruct IH as [(lam' & r' & e & H1 & H2 & H3)|IH]; [left; exists lam', r', e; split; [right; exact H1|]; auto|].
        right. intros r' [<-|H]; [exact Hi|apply IH; exact H]. }
    destruct Hcase as [(lam & r & e & H1 & H2 & <-)|Hno].
    + rewrite (dual_in cs L Hd HL (fun r Hr => proj1 (Hok r Hr)) lam r e H1 H2). apply (HC lam r H1). exact H2.
    + rewrite dual_out; [|intros lam r Hi; apply Hno; eapply Hin; exact Hi]. specialize (Hfree v (y v) Hv Hno). lia.
  - apply sum_le_forall. intros [lam r] Hi. cbn [fst snd]. apply (HC lam r Hi). apply Hy. eapply Hin. exact Hi.
Qed.

(** ** From the greedy choice to a certificate *)
Lemma between (A B : list Z) : (forall a b, In a A -> In b B -> a <= b) -> exists l, (forall a, In a A -> a <= l) /\ (forall b, In b B -> l <= b).
Proof.
  revert B. induction A as [|a A IH]; intros B H.
  - induction B as [|b B IHB]; [exists 0; split; intros ? []|]. destruct IHB as (l & _ & Hl); [intros ? ? []|].
    exists (Z.min l b). split; [intros ? []|]. intros b' [<-|Hb]; [lia|]. specialize (Hl b' Hb). lia.
  - destruct (IH B) as (l & H1 & H2); [intros; apply H; [right|]; assumption|].
    exists (Z.max l a). split; [intros a' [<-|Ha]; [lia|]; specialize (H1 a' Ha); lia|].
    intros b Hb. specialize (H2 b Hb). specialize (H a b (or_introl eq_refl) Hb). lia.
Qed.
Definition sign (mode : objective_type) : Z := match mode with minimize => 1 | maximize => -1 end.
(** What choosing a term costs. *)
Definition tcost (cost : nat -> Z) (e : felem) : Z := if f_factor e <? 0 then - cost (f_var e) else cost (f_var e).
Lemma greedy_certified cost (x : list bool) r :
  (forall e, In e (m_elements r) -> f_factor e = 1 \/ f_factor e = -1) ->
  (forall e, In e (m_elements r) -> (f_var e < length x)%nat) ->
  row_satisfied x r ->
  (forall e e', In e (m_elements r) -> In e' (m_elements r) -> chosen x e -> ~ chosen x e' -> tcost cost e <= tcost cost e') ->
  (m_min r < lhs (as_assignment x) (m_elements r) -> forall e, In e (m_elements r) -> chosen x e -> tcost cost e <= 0) ->
  (lhs (as_assignment x) (m_elements r) < m_max r -> forall e, In e (m_elements r) -> ~ chosen x e -> 0 <= tcost cost e) ->
  exists lam, certified cost (as_assignment x) r lam.
Proof.
  intros Hu Hv Hs H1 H2 H3. set (value := lhs (as_assignment x) (m_elements r)) in *.
  set (ch := fun e => Bool.eqb (as_assignment x (f_var e)) (0 <? f_factor e)).
  assert (Hch : forall e, In e (m_elements r) -> (ch e = true <-> chosen x e)).
  { intros e He. unfold ch, chosen, as_assignment. rewrite Bool.eqb_true_iff. specialize (Hv e He). split.
    - intros <-. apply nth_error_nth'. exact Hv.
    - intros E. apply nth_error_nth. exact E. }
  destruct (between (map (tcost cost) (filter ch (m_elements r)) ++ (if value <? m_max r then [0] else []))
                    (map (tcost cost) (filter (fun e => negb (ch e)) (m_elements r)) ++ (if m_min r <? value then [0] else []))) as (lam & Hlo & Hhi).
  { intros a b Ha Hb. apply in_app_or in Ha, Hb.
    assert (Ka : (exists e, tcost cost e = a /\ In e (m_elements r) /\ chosen x e) \/ (value < m_max r /\ a = 0)).
    { destruct Ha as [Ha|Ha].
      - left. apply in_map_iff in Ha. destruct Ha as (e & E & Ha). apply filter_In in Ha. exists e. split; [exact E|]. split; [tauto|]. apply Hch; tauto.
      - right. destruct (Z.ltb_spec value (m_max r)); [|destruct Ha]. destruct Ha as [<-|[]]. auto. }
    assert (Kb : (exists e, tcost cost e = b /\ In e (m_elements r) /\ ~ chosen x e) \/ (m_min r < value /\ b = 0)).
    { destruct Hb as [Hb|Hb].
      - left. apply in_map_iff in Hb. destruct Hb as (e & E & Hb). apply filter_In in Hb. exists e. split; [exact E|]. split; [tauto|].
        rewrite <- Hch by tauto. destruct Hb as [_ Hb]. apply negb_true_iff in Hb. congruence.
      - right. destruct (Z.ltb_spec (m_min r) value); [|destruct Hb]. destruct Hb as [<-|[]]. auto. }
    destruct Ka as [(e & <- & Ie & Ce)|[Ka ->]], Kb as [(e' & <- & Ie' & Ce')|[Kb ->]]; try lia.
    - apply H1; assumption.
    - apply H2; assumption.
    - apply H3; assumption. }
  exists lam. split.
  - intros e b He. assert (Hc : if ch e then tcost cost e <= lam else lam <= tcost cost e).
    { destruct (ch e) eqn:E; [apply Hlo|apply Hhi]; apply in_or_app; left; apply in_map; apply filter_In; rewrite E; auto. }
    unfold ch, tcost in Hc. destruct (Hu e He) as [U|U]; rewrite U in *; cbn in Hc; destruct (as_assignment x (f_var e)), b; cbn in *; lia.
  - intros y Hy. fold value. assert (Hl : value < m_max r -> 0 <= lam).
    { intros K. apply Hlo. apply in_or_app. right. rewrite (proj2 (Z.ltb_lt value (m_max r)) K). left. reflexivity. }
    assert (Hr : m_min r < value -> lam <= 0).
    { intros K. apply Hhi. apply in_or_app. right. rewrite (proj2 (Z.ltb_lt (m_min r) value) K). left. reflexivity. }
    destruct (Z.lt_trichotomy value (lhs y (m_elements r))) as [K|[K|K]].
    + specialize (Hl ltac:(lia)). nia.
    + rewrite K. lia.
    + specialize (Hr ltac:(lia)). nia.
Qed.
