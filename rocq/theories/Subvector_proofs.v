(** Proofs about the pool of sub-vectors. *)
From Coq Require Import Permutation.
From Verif Require Import Base Subvector_model Subvector_spec.
Open Scope Z_scope.

(** ** Bytes *)
Lemma of_bytes_of k : forall v, 0 <= v < 2 ^ (8 * Z.of_nat k) -> of_bytes (bytes_of k v) = v.
Proof.
  induction k as [|k IH]; intros v Hv; cbn [bytes_of of_bytes].
  - change (8 * Z.of_nat 0) with 0 in Hv. change (2 ^ 0) with 1 in Hv. lia.
  - rewrite IH.
    + pose proof (Z.div_mod v 256). lia.
    + replace (8 * Z.of_nat (S k)) with (8 + 8 * Z.of_nat k) in Hv by lia. rewrite Z.pow_add_r in Hv by lia. change (2 ^ 8) with 256 in Hv.
      split; [apply Z.div_pos; lia|]. apply Z.div_lt_upper_bound; lia.
Qed.
Lemma bytes_of_length k : forall v, length (bytes_of k v) = k.
Proof. induction k; intros; cbn; auto. Qed.

Lemma nth_firstn_skipn {A} (l : list A) p k m : nth_error (firstn k (skipn p l)) m = if Nat.ltb m k then nth_error l (p + m) else None.
Proof.
  assert (H : nth_error (skipn p l) m = nth_error l (p + m)).
  { revert l. induction p as [|p IH]; intros l; [reflexivity|]. destruct l as [|a l]; cbn; [destruct m; reflexivity|apply IH]. }
  destruct (Nat.ltb_spec m k).
  - rewrite <- H. generalize (skipn p l). clear -H0. revert m H0. induction k as [|k IH]; intros m Hm; [lia|]. intros l. destruct l as [|a l]; [destruct m; reflexivity|].
    destruct m; [reflexivity|]. cbn. apply IH. lia.
  - apply nth_error_None. rewrite firstn_length. lia.
Qed.
Lemma write_nth d p b d' : write_bytes d p b = Some d' -> length d' = length d /\
  forall m, nth_error d' m = if Nat.leb p m && Nat.ltb m (p + length b) then nth_error b (m - p) else nth_error d m.
Proof.
  unfold write_bytes. destruct (Nat.leb_spec (p + length b) (length d)); [|discriminate]. intros H'. inversion H'; subst d'; clear H'.
  assert (Lp : length (firstn p d) = p) by (rewrite firstn_length; lia). split.
  - rewrite !app_length, Lp, skipn_length. lia.
  - intros m. destruct (Nat.leb_spec p m); cbn [andb].
    + rewrite nth_error_app2 by lia. rewrite Lp. destruct (Nat.ltb_spec m (p + length b)).
      * rewrite nth_error_app1 by lia. reflexivity.
      * rewrite nth_error_app2 by lia. pose proof (nth_firstn_skipn d (p + length b) (length d) (m - p - length b)) as E.
        rewrite firstn_all2 in E by (rewrite skipn_length; lia). rewrite E. destruct (Nat.ltb_spec (m - p - length b) (length d)).
        -- f_equal. lia.
        -- symmetry. apply nth_error_None. lia.
    + rewrite nth_error_app1 by lia. pose proof (nth_firstn_skipn d 0 p m) as E. cbn [skipn plus] in E. rewrite E. destruct (Nat.ltb_spec m p); [reflexivity|lia].
Qed.
Lemma write_some d p b : (p + length b <= length d)%nat -> exists d', write_bytes d p b = Some d'.
Proof. intros H. unfold write_bytes. destruct (Nat.leb_spec (p + length b) (length d)); [eauto|lia]. Qed.
Lemma read_ext d d' q k : length d' = length d -> (forall m, (q <= m < q + k)%nat -> nth_error d' m = nth_error d m) -> read_bytes d' q k = read_bytes d q k.
Proof.
  intros L H. unfold read_bytes. rewrite L. destruct (Nat.leb _ _); [|reflexivity]. f_equal. apply nth_error_ext. intros m.
  rewrite !nth_firstn_skipn. destruct (Nat.ltb_spec m k); [|reflexivity]. apply H. lia.
Qed.
Lemma read_nth d q k c : read_bytes d q k = Some c -> length c = k /\ (q + k <= length d)%nat /\ forall m, (m < k)%nat -> nth_error c m = nth_error d (q + m).
Proof.
  unfold read_bytes. destruct (Nat.leb_spec (q + k) (length d)); [|discriminate]. intros E. inversion E; subst c. split; [rewrite firstn_length, skipn_length; lia|].
  split; [assumption|]. intros m Hm. rewrite nth_firstn_skipn. destruct (Nat.ltb_spec m k); [reflexivity|lia].
Qed.
Lemma read_intro d q k c : length c = k -> (q + k <= length d)%nat -> (forall m, (m < k)%nat -> nth_error d (q + m) = nth_error c m) -> read_bytes d q k = Some c.
Proof.
  intros L Hl H. unfold read_bytes. destruct (Nat.leb_spec (q + k) (length d)); [|lia]. f_equal. apply nth_error_ext. intros m. rewrite nth_firstn_skipn.
  destruct (Nat.ltb_spec m k); [apply H; assumption|]. symmetry. apply nth_error_None. lia.
Qed.

(** ** The invariant *)
Fixpoint chain (d : list Z) (h : Z) (fl : list nat) : Prop :=
  match fl with
  | [] => h = npos
  | i :: fl' => h = Z.of_nat i /\ exists b, read_bytes d i 4 = Some b /\ chain d (of_bytes b) fl'
  end.
Record inv (e : nat) (s : subvector) (l : list (nat * list Z)) (fl : list nat) : Prop := {
  inv_size : su_esize s = e; inv_four : (4 <= e)%nat;
  inv_len : length (su_data s) = (e * (length l + length fl))%nat;
  inv_nodup : NoDup (map fst l ++ fl);
  inv_slot : forall i, In i (map fst l ++ fl) -> (i + e <= length (su_data s))%nat /\ (i mod e = 0)%nat;
  inv_chain : chain (su_data s) (su_head s) fl;
  inv_read : forall i c, In (i, c) l -> read_bytes (su_data s) i e = Some c }.

(** Two different slots are disjoint. *)
Lemma slots_disjoint e i j : (0 < e)%nat -> (i mod e = 0)%nat -> (j mod e = 0)%nat -> i <> j -> disjoint e i j.
Proof.
  intros He Hi Hj Hne. unfold disjoint. pose proof (Nat.div_mod i e ltac:(lia)) as Di. pose proof (Nat.div_mod j e ltac:(lia)) as Dj.
  rewrite Hi in Di. rewrite Hj in Dj. destruct (Nat.lt_trichotomy (i / e) (j / e)) as [H|[H|H]]; [left|exfalso; apply Hne; rewrite Di, Dj, H; reflexivity|right]; nia.
Qed.
Lemma chain_ext d d' fl : length d' = length d ->
  (forall i, In i fl -> forall m, (i <= m < i + 4)%nat -> nth_error d' m = nth_error d m) -> forall h, chain d h fl -> chain d' h fl.
Proof.
  intros L. induction fl as [|i fl IH]; intros H h; cbn; [auto|]. intros (E & b & Eb & Hc). split; [exact E|]. exists b. split.
  - rewrite (read_ext d d' i 4 L); [exact Eb|]. intros m Hm. apply (H i); [left; reflexivity|exact Hm].
  - apply IH; [|exact Hc]. intros j Hj. apply H. right. exact Hj.
Qed.

(** Writing inside the live element i. *)
Lemma inv_write e s l1 i c l2 fl d' c' : inv e s (l1 ++ (i, c) :: l2) fl -> length d' = length (su_data s) ->
  (forall m, ~ (i <= m < i + e)%nat -> nth_error d' m = nth_error (su_data s) m) ->
  read_bytes d' i e = Some c' -> inv e (with_data s d') (l1 ++ (i, c') :: l2) fl.
Proof.
  intros [H1 H2 H3 H4 H5 H6 H7] L Hout Hin. assert (Em : map fst (l1 ++ (i, c') :: l2) = map fst (l1 ++ (i, c) :: l2)) by (rewrite !map_app; reflexivity).
  assert (Hni : forall j, In j (map fst (l1 ++ (i, c) :: l2) ++ fl) -> j <> i -> disjoint e i j).
  { intros j Hj Hne. apply slots_disjoint; [lia| |apply H5; exact Hj|congruence]. apply H5. apply in_or_app. left. rewrite map_app. apply in_or_app. right. left. reflexivity. }
  constructor; cbn [with_data su_data su_esize su_head]; auto.
  - rewrite L, H3, !app_length. cbn. reflexivity.
  - rewrite Em. exact H4.
  - rewrite Em. intros j Hj. rewrite L. apply H5. exact Hj.
  - apply (chain_ext (su_data s)); [exact L| |exact H6]. intros j Hj m Hm. apply Hout.
    assert (Hd : disjoint e i j).
    { apply Hni; [apply in_or_app; right; exact Hj|]. intros ->. rewrite map_app in H4. cbn in H4. rewrite <- app_assoc in H4. apply NoDup_remove_2 in H4. apply H4. apply in_or_app. right. apply in_or_app. right. exact Hj. }
    unfold disjoint in Hd. lia.
  - intros j cj Hj. apply in_app_or in Hj. destruct (Nat.eq_dec j i) as [->|Hne].
    + assert (Hnot : ~ In i (map fst (l1 ++ l2))).
      { rewrite map_app in H4. cbn in H4. rewrite <- app_assoc in H4. apply NoDup_remove_2 in H4. intros Hin'. apply H4. rewrite map_app in Hin'. apply in_app_or in Hin'.
        apply in_or_app. destruct Hin'; [left; assumption|right; apply in_or_app; left; assumption]. }
      destruct Hj as [Hj|[Hj|Hj]].
      * exfalso. apply Hnot. rewrite map_app. apply in_or_app. left. apply (in_map fst) in Hj. exact Hj.
      * inversion Hj; subst cj. exact Hin.
      * exfalso. apply Hnot. rewrite map_app. apply in_or_app. right. apply (in_map fst) in Hj. exact Hj.
    + assert (Hold : In (j, cj) (l1 ++ (i, c) :: l2)).
      { apply in_or_app. destruct Hj as [Hj|[Hj|Hj]]; [left; exact Hj|congruence|right; right; exact Hj]. }
      rewrite (read_ext (su_data s) d' j e L); [apply H7; exact Hold|]. intros m Hm. apply Hout.
      assert (Hd : disjoint e i j). { apply Hni; [|exact Hne]. apply in_or_app. left. apply (in_map fst) in Hold. exact Hold. }
      unfold disjoint in Hd. lia.
Qed.
Lemma inv_mem e s l fl i c : inv e s l fl -> In (i, c) l -> (i + e <= length (su_data s))%nat /\ (i mod e = 0)%nat.
Proof. intros H Hi. apply (inv_slot _ _ _ _ H). apply in_or_app. left. apply (in_map fst) in Hi. exact Hi. Qed.
Lemma inv_check e s l fl i c : inv e s l fl -> In (i, c) l -> check_index s i = true.
Proof.
  intros H Hi. destruct (inv_mem _ _ _ _ _ _ H Hi) as [A B]. unfold check_index. rewrite (inv_size _ _ _ _ H). apply andb_true_iff. split; [apply Nat.leb_le; exact A|apply Nat.eqb_eq; exact B].
Qed.
Lemma in_mid {A} (l1 : list A) a l2 : In a (l1 ++ a :: l2).
Proof. apply in_or_app. right. left. reflexivity. Qed.

Lemma inv_set e s l1 i c l2 fl k v s' c' : inv e s (l1 ++ (i, c) :: l2) fl -> (k < e)%nat -> su_set s (i + k) v = Some s' -> list_upd c k v = Some c' ->
  inv e s' (l1 ++ (i, c') :: l2) fl.
Proof.
  intros H Hk. unfold su_set. destruct (list_upd (su_data s) (i + k) v) as [d|] eqn:E; [|discriminate]. cbn [bind]. intros Es Ec. inversion Es; subst s'; clear Es.
  pose proof (inv_read _ _ _ _ H i c (in_mid _ _ _)) as Hr. destruct (read_nth _ _ _ _ Hr) as (Lc & Hle & Hn).
  pose proof (list_upd_length _ _ _ _ E) as Ld. eapply inv_write; [exact H|exact Ld| |].
  - intros m Hm. rewrite (list_upd_nth _ _ _ _ _ E). destruct (Nat.eqb_spec m (i + k)); [lia|reflexivity].
  - apply read_intro; [rewrite (list_upd_length _ _ _ _ Ec); exact Lc|lia|]. intros m Hm. rewrite (list_upd_nth _ _ _ _ _ E), (list_upd_nth _ _ _ _ _ Ec).
    destruct (Nat.eqb_spec (i + m) (i + k)), (Nat.eqb_spec m k); try lia; [reflexivity|]. symmetry. apply Hn. exact Hm.
Qed.
Lemma inv_write_all e s l1 i c l2 fl b d : inv e s (l1 ++ (i, c) :: l2) fl -> length b = e -> write_bytes (su_data s) i b = Some d ->
  inv e (with_data s d) (l1 ++ (i, b) :: l2) fl.
Proof.
  intros H Lb E. destruct (write_nth _ _ _ _ E) as [Ld Hn]. rewrite Lb in Hn. destruct (inv_mem _ _ _ _ _ _ H (in_mid _ _ _)) as [Hle _].
  eapply inv_write; [exact H|exact Ld| |].
  - intros m Hm. rewrite Hn. destruct (Nat.leb_spec i m), (Nat.ltb_spec m (i + e)); cbn [andb]; try reflexivity. lia.
  - apply read_intro; [exact Lb|lia|]. intros m Hm. rewrite Hn. destruct (Nat.leb_spec i (i + m)); [|lia]. destruct (Nat.ltb_spec (i + m) (i + e)); [|lia]. cbn [andb]. f_equal. lia.
Qed.
Lemma inv_remove e s l1 i c l2 fl s' : inv e s (l1 ++ (i, c) :: l2) fl -> (Z.of_nat (length (su_data s)) < 2 ^ 32) -> su_remove s i = Some s' ->
  inv e s' (l1 ++ l2) (i :: fl).
Proof.
  intros H Hb. unfold su_remove. destruct (check_index s i); [|discriminate]. destruct (write_bytes (su_data s) i (bytes_of 4 (su_head s))) as [d|] eqn:E; [|discriminate]. cbn [bind].
  intros Es. inversion Es; subst s'; clear Es. pose proof (inv_four _ _ _ _ H) as H4. destruct (inv_mem _ _ _ _ _ _ H (in_mid _ _ _)) as [Hle Hmod].
  destruct (write_nth _ _ _ _ E) as [Ld Hn]. rewrite bytes_of_length in Hn.
  (* the content after the write *)
  destruct (read_bytes d i e) as [c'|] eqn:Er; [|unfold read_bytes in Er; destruct (Nat.leb_spec (i + e) (length d)); [discriminate|lia]].
  assert (Hw : inv e (with_data s d) (l1 ++ (i, c') :: l2) fl).
  { eapply inv_write; [exact H|exact Ld| |exact Er]. intros m Hm. rewrite Hn. destruct (Nat.leb_spec i m), (Nat.ltb_spec m (i + 4)); cbn [andb]; try reflexivity. lia. }
  destruct Hw as [W1 W2 W3 W4 W5 W6 W7]. cbn [with_data su_data su_esize su_head] in *.
  assert (HP : Permutation (map fst (l1 ++ (i, c') :: l2) ++ fl) (map fst (l1 ++ l2) ++ i :: fl)).
  { rewrite !map_app. cbn. rewrite <- !app_assoc. apply Permutation_app_head. cbn. rewrite Permutation_middle. reflexivity. }
  constructor; cbn [su_data su_esize su_head]; auto.
  - rewrite W3, !app_length. cbn. nia.
  - eapply Permutation_NoDup; eassumption.
  - intros j Hj. apply W5. eapply Permutation_in; [apply Permutation_sym; exact HP|exact Hj].
  - cbn [chain]. split; [reflexivity|]. exists (bytes_of 4 (su_head s)). split.
    + apply read_intro; [apply bytes_of_length|lia|]. intros m Hm. rewrite Hn. destruct (Nat.leb_spec i (i + m)); [|lia]. destruct (Nat.ltb_spec (i + m) (i + 4)); [|lia]. cbn [andb]. f_equal. lia.
    + rewrite of_bytes_of; [exact W6|]. destruct fl as [|j fl']; cbn [chain] in W6.
      * rewrite W6. unfold npos. cbn. lia.
      * destruct W6 as [-> _]. destruct (W5 j) as [A _]; [apply in_or_app; right; left; reflexivity|]. change (8 * Z.of_nat 4) with 32. lia.
  - intros j cj Hj. apply W7. apply in_app_or in Hj. apply in_or_app. destruct Hj; [left; assumption|right; right; assumption].
Qed.
Lemma inv_emplace e s l fl s' i : inv e s l fl -> (Z.of_nat (length (su_data s')) < 2 ^ 32) -> su_emplace s = Some (s', i) ->
  exists c fl', su_element s' i = Some c /\ inv e s' ((i, c) :: l) fl' /\
    ((length (su_data s) < length (su_data s'))%nat -> fl = []).
Proof.
  intros H Hb. pose proof (inv_four _ _ _ _ H) as H4. unfold su_emplace. destruct (Z.eqb_spec (su_head s) npos) as [Eh|Eh].
  - cbn [bind]. destruct (check_index _ _) eqn:Ec; [|discriminate]. intros Es. inversion Es; subst s' i; clear Es. change (Z.pow_pos 2 32) with (2 ^ 32) in *. cbn [with_data su_data su_esize su_head] in *.
    rewrite app_length, repeat_length in Hb. rewrite (inv_size _ _ _ _ H) in *.
    assert (Ei : Z.to_nat (Z.of_nat (length (su_data s)) mod 2 ^ 32) = length (su_data s)) by (rewrite Z.mod_small by lia; apply Nat2Z.id). rewrite Ei in *.
    destruct H as [W1 W2 W3 W4 W5 W6 W7].
    assert (fl = []) as ->.
    { destruct fl as [|j fl]; [reflexivity|]. cbn [chain] in W6. destruct W6 as [E _]. destruct (W5 j) as [A _]; [apply in_or_app; right; left; reflexivity|]. unfold npos in *. lia. }
    assert (Hr : read_bytes (su_data s ++ repeat 0 e) (length (su_data s)) e = Some (repeat 0 e)).
    { apply read_intro; [apply repeat_length|rewrite app_length, repeat_length; lia|]. intros m Hm. rewrite nth_error_app2 by lia. f_equal. lia. }
    exists (repeat 0 e), []. split; [|split; [|reflexivity]].
    + unfold su_element, with_data in *. cbn [su_data su_esize]. rewrite W1 in Ec |- *. rewrite Ec. exact Hr.
    + constructor; cbn [with_data su_data su_esize su_head]; auto.
      * rewrite app_length, repeat_length, W3. cbn. nia.
      * cbn. constructor; [|rewrite app_nil_r in W4; rewrite app_nil_r; exact W4]. rewrite app_nil_r. intros Hin. destruct (W5 (length (su_data s))) as [A _]; [rewrite app_nil_r; exact Hin|lia].
      * intros j Hj. cbn in Hj. rewrite app_length, repeat_length. destruct Hj as [<-|Hj].
        -- split; [lia|]. rewrite W3. rewrite Nat.mul_comm. apply Nat.mod_mul. lia.
        -- destruct (W5 j Hj). lia.
      * intros j cj [Hj|Hj]; [inversion Hj; subst; exact Hr|]. pose proof (W7 j cj Hj) as Hr'. destruct (read_nth _ _ _ _ Hr') as (A & B & C).
        apply read_intro; [exact A|rewrite app_length; lia|]. intros m Hm. rewrite nth_error_app1 by lia. symmetry. apply C. exact Hm.
  - destruct (read_bytes (su_data s) (Z.to_nat (su_head s)) 4) as [b|] eqn:Eb; [|discriminate]. cbn [bind]. destruct (check_index _ _) eqn:Ec; [|discriminate].
    intros Es. inversion Es; subst s' i; clear Es. cbn [su_data su_esize su_head] in *. destruct H as [W1 W2 W3 W4 W5 W6 W7].
    destruct fl as [|j fl]; [cbn [chain] in W6; congruence|]. cbn [chain] in W6. destruct W6 as (E & b' & Eb' & Hc). rewrite E, Nat2Z.id in *. rewrite Eb in Eb'. inversion Eb'; subst b'; clear Eb'.
    destruct (W5 j) as [A B]; [apply in_or_app; right; left; reflexivity|].
    destruct (read_bytes (su_data s) j e) as [c|] eqn:Er; [|unfold read_bytes in Er; destruct (Nat.leb_spec (j + e) (length (su_data s))); [discriminate|lia]].
    exists c, fl. split; [|split; [|lia]].
    + unfold su_element. rewrite Ec. cbn. rewrite W1. exact Er.
    + assert (HP : Permutation (map fst l ++ j :: fl) (map fst ((j, c) :: l) ++ fl)) by (cbn; rewrite Permutation_middle; reflexivity).
      constructor; cbn [su_data su_esize su_head]; auto.
      * rewrite W3. cbn. nia.
      * eapply Permutation_NoDup; eassumption.
      * intros i Hi. apply W5. eapply Permutation_in; [apply Permutation_sym; exact HP|exact Hi].
      * intros i ci [Hi|Hi]; [inversion Hi; subst; exact Er|auto].
Qed.

(** The storage never shrinks. *)
Lemma sizes s : (forall i s', su_emplace s = Some (s', i) -> (length (su_data s) <= length (su_data s'))%nat) /\
  (forall i s', su_remove s i = Some s' -> length (su_data s') = length (su_data s)) /\
  (forall i v s', su_set s i v = Some s' -> length (su_data s') = length (su_data s)) /\
  (forall i v s', su_fill s i v = Some s' -> length (su_data s') = length (su_data s)) /\
  (forall i j s', su_copy s i j = Some s' -> length (su_data s') = length (su_data s)).
Proof.
  repeat split.
  - intros i s'. unfold su_emplace. destruct (_ =? _).
    + cbn [bind]. destruct (check_index _ _); [|discriminate]. intros E. inversion E; subst. cbn. rewrite app_length. lia.
    + destruct (read_bytes _ _ _); [|discriminate]. cbn [bind]. destruct (check_index _ _); [|discriminate]. intros E. inversion E; subst. cbn. lia.
  - intros i s'. unfold su_remove. destruct (check_index _ _); [|discriminate]. destruct (write_bytes _ _ _) eqn:E; [|discriminate]. cbn. intros Es. inversion Es; subst. cbn. apply (write_nth _ _ _ _ E).
  - intros i v s'. unfold su_set. destruct (list_upd _ _ _) eqn:E; [|discriminate]. cbn. intros Es. inversion Es; subst. cbn. apply (list_upd_length _ _ _ _ E).
  - intros i v s'. unfold su_fill. destruct (write_bytes _ _ _) eqn:E; [|discriminate]. cbn. intros Es. inversion Es; subst. cbn. apply (write_nth _ _ _ _ E).
  - intros i j s'. unfold su_copy. destruct (read_bytes _ _ _); [|discriminate]. cbn. destruct (write_bytes _ _ _) eqn:E; [|discriminate]. cbn. intros Es. inversion Es; subst. cbn. apply (write_nth _ _ _ _ E).
Qed.

Lemma alive_inv e s l : alive e s l -> Z.of_nat (length (su_data s)) < 2 ^ 32 -> exists fl, inv e s l fl.
Proof.
  induction 1 as [s Hi|s l s' i c Ha IH He Hel|s l1 i c l2 s' Ha IH Hr|s l1 i c l2 k v s' c' Ha IH Hk Hs Hc|s l1 i c l2 v s' Ha IH Hf|s l1 i c l2 j d s' Ha IH Hj Hc|s l1 i c l2 k v s' c' Ha IH Hk Hs Hv Hc]; intros Hb;
    pose proof (sizes s) as (Z1 & Z2 & Z3 & Z4 & Z5).
  - unfold su_init in Hi. destruct (Nat.ltb_spec 0 e); [|discriminate]. destruct (Nat.leb_spec 4 e); [|discriminate]. inversion Hi; subst s.
    exists []. constructor; cbn [su_data su_esize su_head map app length chain plus]; [reflexivity|assumption|symmetry; apply Nat.mul_0_r|constructor|intros i []|reflexivity|intros i c []].
  - specialize (Z1 _ _ He). destruct (IH ltac:(lia)) as (fl & H). destruct (inv_emplace _ _ _ _ _ _ H Hb He) as (c' & fl' & Ec & H' & _). exists fl'. rewrite Hel in Ec. inversion Ec; subst. exact H'.
  - rewrite (Z2 _ _ Hr) in Hb. destruct (IH Hb) as (fl & H). exists (i :: fl). eapply inv_remove; eassumption.
  - rewrite (Z3 _ _ _ Hs) in Hb. destruct (IH Hb) as (fl & H). exists fl. eapply inv_set; eassumption.
  - rewrite (Z4 _ _ _ Hf) in Hb. destruct (IH Hb) as (fl & H). exists fl. unfold su_fill in Hf. destruct (write_bytes _ _ _) eqn:E; [|discriminate]. cbn in Hf. inversion Hf; subst.
    rewrite (inv_size _ _ _ _ H) in E. eapply inv_write_all; [exact H|apply repeat_length|exact E].
  - rewrite (Z5 _ _ _ Hc) in Hb. destruct (IH Hb) as (fl & H). exists fl. unfold su_copy in Hc. rewrite (inv_size _ _ _ _ H), (inv_read _ _ _ _ H j d Hj) in Hc. cbn [bind] in Hc.
    destruct (write_bytes _ _ _) eqn:E; [|discriminate]. cbn in Hc. inversion Hc; subst. eapply inv_write_all; [exact H| |exact E].
    apply (read_nth _ _ _ _ (inv_read _ _ _ _ H j d Hj)).
  - unfold su_invert in Hs. destruct (nth_error (su_data s) (i + k)) as [w|] eqn:Ew; [|discriminate]. cbn [bind] in Hs. rewrite (Z3 _ _ _ Hs) in Hb. destruct (IH Hb) as (fl & H). exists fl.
    destruct (read_nth _ _ _ _ (inv_read _ _ _ _ H i c (in_mid _ _ _))) as (_ & _ & Hn). rewrite (Hn k Hk), Ew in Hv. inversion Hv; subst w. eapply inv_set; eassumption.
Qed.
