From Verif Require Import Base Problem_model Problem_spec Merged_model Merged_spec.
Open Scope Z_scope.

(** ** The assumptions on std::sort are satisfiable. *)
Lemma insert_perm {A} lt (a : A) l : Permutation (insert lt a l) (a :: l).
Proof.
  induction l as [|b l IH]; cbn; [reflexivity|].
  destruct (lt b a); [|reflexivity].
  rewrite IH. apply perm_swap.
Qed.
Lemma insertion_sort_permutes : permutes insertion_sort.
Proof.
  intros A lt l. induction l as [|a l IH]; cbn; [constructor|].
  fold (insertion_sort A lt l). rewrite insert_perm. constructor. exact IH.
Qed.
Lemma insertion_sort_sorts : sorts insertion_sort.
Proof.
  intros A lt l Hirr Htr Hntr. induction l as [|a l IH]; cbn; [constructor|].
  fold (insertion_sort A lt l). generalize dependent (insertion_sort A lt l).
  intros s Hs. induction Hs as [|b s Hs IHs Hall]; cbn.
  - constructor; constructor.
  - destruct (lt b a) eqn:E.
    + constructor; [exact IHs|].
      apply Forall_forall. intros z Hz.
      apply (Permutation_in z (insert_perm lt a s)) in Hz. destruct Hz as [<-|Hz].
      * destruct (lt a b) eqn:E2; [|reflexivity].
        pose proof (Htr a b a E2 E) as H. rewrite Hirr in H. discriminate.
      * rewrite Forall_forall in Hall. auto.
    + constructor; [constructor; assumption|].
      constructor; [exact E|]. rewrite Forall_forall in *. intros z Hz.
      apply (Hntr z b a); [apply Hall; assumption|exact E].
Qed.

(** ** Semantics under permutation *)
Lemma lhs_app x a b : lhs x (a ++ b) = lhs x a + lhs x b.
Proof. induction a as [|e a IH]; cbn [app lhs]; lia. Qed.
Lemma lhs_perm x a b : Permutation a b -> lhs x a = lhs x b.
Proof. induction 1; cbn [lhs]; lia. Qed.

Lemma sat_merged_perm x a b : Permutation a b -> sat_merged x a <-> sat_merged x b.
Proof.
  intros P. unfold sat_merged. split; intros H m Hm; apply H.
  - eapply Permutation_in; [apply Permutation_sym|]; eassumption.
  - eapply Permutation_in; eassumption.
Qed.

(** Two merged lists with the same meaning, element by element. *)
Definition msame (a b : merged) : Prop :=
  Permutation (m_elements a) (m_elements b) /\ m_min a = m_min b /\ m_max a = m_max b.
Lemma sat_merged_same x a b : Forall2 msame a b -> sat_merged x a <-> sat_merged x b.
Proof.
  intros H. unfold sat_merged. split; intros Hs m Hm.
  - apply In_nth_error in Hm. destruct Hm as [i Hi].
    revert i Hi. induction H as [|p q a b (Hp & H1 & H2) HF IH]; intros [|i] Hi; cbn in Hi; try discriminate.
    + inversion Hi; subst m. rewrite <- (lhs_perm x _ _ Hp), <- H1, <- H2. apply Hs. left; reflexivity.
    + eapply IH; [|eassumption]. intros m' Hm'. apply Hs. right; assumption.
  - apply In_nth_error in Hm. destruct Hm as [i Hi].
    revert i Hi. induction H as [|p q a b (Hp & H1 & H2) HF IH]; intros [|i] Hi; cbn in Hi; try discriminate.
    + inversion Hi; subst m. rewrite (lhs_perm x _ _ Hp), H1, H2. apply Hs. left; reflexivity.
    + eapply IH; [|eassumption]. intros m' Hm'. apply Hs. right; assumption.
Qed.

(** ** The cache *)
Definition cache_ok (s : mstate) : Prop :=
  forall k i, In (k, i) (fst s) -> exists m, nth_error (snd s) i = Some m /\ m_elements m = k.

Lemma cache_find_some c k i : cache_find c k = Some i -> In (k, i) c.
Proof.
  induction c as [|(k', j) c IH]; cbn; [discriminate|].
  destruct (felems_eqb_spec k k') as [->|]; intros H; [inversion H; left; reflexivity|right; auto].
Qed.
Lemma cache_find_none c k : cache_find c k = None -> forall i, ~ In (k, i) c.
Proof.
  induction c as [|(k', j) c IH]; cbn; [tauto|].
  destruct (felems_eqb_spec k k') as [->|Hne]; [discriminate|].
  intros H i [E|Hin]; [inversion E; congruence|]. exact (IH H i Hin).
Qed.

Lemma cache_ok_push c ret k m :
  cache_ok (c, ret) -> m_elements m = k ->
  cache_ok (cache_emplace c k (length ret), ret ++ [m]).
Proof.
  intros H Hk k' i Hin. cbn in *. unfold cache_emplace in Hin. apply in_app_or in Hin.
  destruct Hin as [Hin|[E|[]]].
  - destruct (H k' i Hin) as (m' & Hm & Hk'). cbn in Hm. exists m'. split; [|assumption].
    rewrite nth_error_app1; [assumption|]. apply nth_error_Some. congruence.
  - inversion E; subst. exists m. split; [|reflexivity].
    rewrite nth_error_app2, Nat.sub_diag by lia. reflexivity.
Qed.

Lemma cache_ok_upd c ret i m m' ret' :
  cache_ok (c, ret) -> nth_error ret i = Some m -> m_elements m' = m_elements m ->
  list_upd ret i m' = Some ret' -> cache_ok (c, ret').
Proof.
  intros H Hi He Hu k j Hin. destruct (H k j Hin) as (z & Hz & Hk). cbn in *.
  rewrite (list_upd_nth _ _ _ _ j Hu). destruct (Nat.eqb_spec j i) as [->|].
  - exists m'. split; [reflexivity|]. rewrite He. congruence.
  - eauto.
Qed.

(** ** One step: the new list means "old list and the new constraint". *)
Definition csat (op : operator_type) (x : assignment) (c : constraint) : Prop :=
  match op with
  | op_equal => sat_equal x c
  | op_greater => sat_greater x c
  | op_less => sat_less x c
  end.
Definition fill_step (op : operator_type) :=
  match op with op_equal => fill_equal | op_less => fill_less | op_greater => fill_greater end.
Definition cfits (x : assignment) (c : constraint) : Prop :=
  int_min <= lhs x (c_elements c) <= int_max.

Lemma sat_merged_app x a b : sat_merged x (a ++ b) <-> sat_merged x a /\ sat_merged x b.
Proof.
  unfold sat_merged. split.
  - intros H. split; intros m Hm; apply H, in_or_app; auto.
  - intros [H1 H2] m Hm. apply in_app_or in Hm. destruct Hm; auto.
Qed.
Lemma sat_merged_one x m : sat_merged x [m] <-> m_min m <= lhs x (m_elements m) <= m_max m.
Proof.
  unfold sat_merged. split; [intros H; apply H; left; reflexivity|].
  intros H m' [<-|[]]. exact H.
Qed.
Lemma sat_merged_upd x ret i m m' ret' :
  nth_error ret i = Some m -> list_upd ret i m' = Some ret' ->
  (sat_merged x [m'] -> sat_merged x [m]) ->
  sat_merged x ret' <-> sat_merged x ret /\ sat_merged x [m'].
Proof.
  intros Hi Hu Himp. unfold sat_merged at 1 2. split.
  - intros H. assert (H' : sat_merged x [m']).
    { rewrite sat_merged_one. apply H. eapply nth_error_In with (n := i).
      rewrite (list_upd_nth _ _ _ _ i Hu), Nat.eqb_refl. reflexivity. }
    split; [|exact H']. intros z Hz. apply In_nth_error in Hz. destruct Hz as [j Hj].
    destruct (Nat.eqb_spec j i) as [Hji|Hne].
    + subst j. rewrite Hi in Hj. inversion Hj; subst z. apply Himp in H'. rewrite sat_merged_one in H'. exact H'.
    + apply H. eapply nth_error_In with (n := j). rewrite (list_upd_nth _ _ _ _ j Hu).
      destruct (Nat.eqb_spec j i); [contradiction|exact Hj].
  - intros [H H'] z Hz. apply In_nth_error in Hz. destruct Hz as [j Hj].
    rewrite (list_upd_nth _ _ _ _ j Hu) in Hj. destruct (Nat.eqb_spec j i) as [Hji|Hji].
    + subst j. inversion Hj; subst z. rewrite sat_merged_one in H'. exact H'.
    + apply H. eapply nth_error_In; eassumption.
Qed.

Lemma fill_step_correct op s e :
  cache_ok s ->
  match fill_step op s e with
  | Ok s' => cache_ok s' /\
      (forall x, cfits x e -> (sat_merged x (snd s') <-> sat_merged x (snd s) /\ csat op x e))
  | Throw => forall x, sat_merged x (snd s) -> ~ csat op x e
  | Crash => False
  end.
Proof.
  intros Hc. destruct s as [c ret].
  assert (Found : forall i, cache_find c (c_elements e) = Some i ->
            exists m, nth_error ret i = Some m /\ m_elements m = c_elements e /\
                      (i < length ret)%nat).
  { intros i Hi. apply cache_find_some in Hi. destruct (Hc _ _ Hi) as (m & Hm & Hk).
    cbn in Hm. exists m. repeat split; try assumption. apply nth_error_Some. congruence. }
  assert (Hsat1 : forall x i m, nth_error ret i = Some m -> sat_merged x ret -> sat_merged x [m]).
  { intros x i m Hi H. rewrite sat_merged_one. apply H. eapply nth_error_In; eassumption. }
  destruct op; cbn [fill_step].
  - (* equal *)
    unfold fill_equal. destruct (cache_find c (c_elements e)) as [i|] eqn:Ef.
    + destruct (Found i eq_refl) as (m & Hm & He & Hlt). rewrite Hm. cbn [of_opt obind].
      destruct (Z.leb_spec (m_min m) (c_value e)); destruct (Z.leb_spec (c_value e) (m_max m)); cbn [andb].
      * destruct (list_upd_some ret i (mk_merged (m_elements m) (c_value e) (c_value e) (m_id m)) Hlt) as [ret' Hu].
        rewrite Hu. cbn [of_opt obind]. split; [eapply cache_ok_upd; try eassumption; reflexivity|].
        intros x Hf. cbn [snd]. rewrite (sat_merged_upd x ret i m _ ret' Hm Hu).
        -- rewrite !sat_merged_one. unfold csat, sat_equal. cbn [m_min m_max m_elements]. rewrite He.
           split; intros [Ha Hb]; split; try assumption; lia.
        -- rewrite !sat_merged_one. cbn [m_min m_max m_elements]. lia.
      * intros x Hs Hq. cbn [snd] in Hs. apply (Hsat1 _ _ _ Hm) in Hs. rewrite sat_merged_one, He in Hs.
        unfold csat, sat_equal in Hq. lia.
      * intros x Hs Hq. cbn [snd] in Hs. apply (Hsat1 _ _ _ Hm) in Hs. rewrite sat_merged_one, He in Hs.
        unfold csat, sat_equal in Hq. lia.
      * intros x Hs Hq. cbn [snd] in Hs. apply (Hsat1 _ _ _ Hm) in Hs. rewrite sat_merged_one, He in Hs.
        unfold csat, sat_equal in Hq. lia.
    + split; [apply cache_ok_push; [assumption|reflexivity]|].
      intros x Hf. cbn [snd]. rewrite sat_merged_app, sat_merged_one. unfold csat, sat_equal.
      cbn [m_min m_max m_elements]. split; intros [Ha Hb]; split; try assumption; lia.
  - (* greater *)
    unfold fill_greater. destruct (cache_find c (c_elements e)) as [i|] eqn:Ef.
    + destruct (Found i eq_refl) as (m & Hm & He & Hlt). rewrite Hm. cbn [of_opt obind].
      destruct (list_upd_some ret i (mk_merged (m_elements m) (Z.max (m_min m) (c_value e)) (m_max m) (m_id m)) Hlt) as [ret' Hu].
      rewrite Hu. cbn [of_opt obind]. split; [eapply cache_ok_upd; try eassumption; reflexivity|].
      intros x Hf. cbn [snd]. rewrite (sat_merged_upd x ret i m _ ret' Hm Hu).
      * assert (Hi : sat_merged x ret -> sat_merged x [m]) by (apply Hsat1 with (i := i); assumption).
        rewrite sat_merged_one in *. unfold csat, sat_greater. cbn [m_min m_max m_elements].
        split; intros [Ha Hb]; split; try assumption; try (specialize (Hi Ha)); rewrite He in *; lia.
      * rewrite !sat_merged_one. cbn [m_min m_max m_elements]. lia.
    + split; [apply cache_ok_push; [assumption|reflexivity]|].
      intros x Hf. cbn [snd]. rewrite sat_merged_app, sat_merged_one. unfold csat, sat_greater, cfits in *.
      cbn [m_min m_max m_elements]. split; intros [Ha Hb]; split; try assumption; lia.
  - (* less *)
    unfold fill_less. destruct (cache_find c (c_elements e)) as [i|] eqn:Ef.
    + destruct (Found i eq_refl) as (m & Hm & He & Hlt). rewrite Hm. cbn [of_opt obind].
      destruct (list_upd_some ret i (mk_merged (m_elements m) (m_min m) (Z.min (m_max m) (c_value e)) (m_id m)) Hlt) as [ret' Hu].
      rewrite Hu. cbn [of_opt obind]. split; [eapply cache_ok_upd; try eassumption; reflexivity|].
      intros x Hf. cbn [snd]. rewrite (sat_merged_upd x ret i m _ ret' Hm Hu).
      * assert (Hi : sat_merged x ret -> sat_merged x [m]) by (apply Hsat1 with (i := i); assumption).
        rewrite sat_merged_one in *. unfold csat, sat_less. cbn [m_min m_max m_elements].
        split; intros [Ha Hb]; split; try assumption; try (specialize (Hi Ha)); rewrite He in *; lia.
      * rewrite !sat_merged_one. cbn [m_min m_max m_elements]. lia.
    + split; [apply cache_ok_push; [assumption|reflexivity]|].
      intros x Hf. cbn [snd]. rewrite sat_merged_app, sat_merged_one. unfold csat, sat_less, cfits in *.
      cbn [m_min m_max m_elements]. split; intros [Ha Hb]; split; try assumption; lia.
Qed.

(** A throw in the second-to-last step needs the constraints already merged: carry an
    abstract meaning [P] of what was processed. *)
Definition means (s : mstate) (F P : assignment -> Prop) : Prop :=
  forall x, F x -> (sat_merged x (snd s) <-> P x).

Lemma fill_list_correct op l : forall s (F P : assignment -> Prop),
  cache_ok s -> means s F P -> (forall x c, F x -> In c l -> cfits x c) ->
  match fill_list (fill_step op) s l with
  | Ok s' => cache_ok s' /\ means s' F (fun x => P x /\ forall c, In c l -> csat op x c)
  | Throw => forall x, F x -> P x -> ~ (forall c, In c l -> csat op x c)
  | Crash => False
  end.
Proof.
  induction l as [|e l IH]; intros s F P Hc Hm HF; cbn [fill_list].
  - split; [assumption|]. intros x Hx. rewrite (Hm x Hx). split; [intros; split; [assumption|intros c []]|tauto].
  - pose proof (fill_step_correct op s e Hc) as Hs.
    destruct (fill_step op s e) as [s'| |] eqn:E; cbn [obind]; [|intros x Hx HP Hall|exact Hs].
    + destruct Hs as [Hc' Hs].
      specialize (IH s' F (fun x => P x /\ csat op x e) Hc').
      assert (Hm' : means s' F (fun x => P x /\ csat op x e)).
      { intros x Hx. rewrite (Hs x). 2:{ apply (HF x e Hx). left; reflexivity. }
        rewrite (Hm x Hx). reflexivity. }
      specialize (IH Hm' ltac:(intros x c Hx Hin; apply (HF x c Hx); right; assumption)).
      destruct (fill_list (fill_step op) s' l) as [s''| |]; [|intros x Hx HP Hall|exact IH].
      * destruct IH as [Hc'' IH]. split; [assumption|].
        intros x Hx. rewrite (IH x Hx). split.
        -- intros [[HP He] Hl]. split; [assumption|]. intros c [<-|Hin]; auto.
        -- intros [HP Hall]. split; [split; [assumption|apply Hall; left; reflexivity]|].
           intros c Hin. apply Hall. right; assumption.
      * apply (IH x Hx).
        -- split; [assumption|]. apply Hall. left; reflexivity.
        -- intros c Hin. apply Hall. right; assumption.
    + apply (Hs x); [apply (Hm x Hx); assumption|]. apply Hall. left; reflexivity.
Qed.

Definition op_constraints (op : operator_type) (pb : problem) : list constraint :=
  match op with op_equal => p_equal pb | op_greater => p_greater pb | op_less => p_less pb end.
Lemma fill_merged_unfold op pb s :
  fill_merged op pb s = fill_list (fill_step op) s (op_constraints op pb).
Proof. destruct op; reflexivity. Qed.

Definition covers (o1 o2 o3 : operator_type) : Prop := forall op, op = o1 \/ op = o2 \/ op = o3.

Lemma op_constraints_in op pb c : In c (op_constraints op pb) -> In c (all_constraints pb).
Proof.
  unfold all_constraints. destruct op; cbn; intros H; apply in_or_app; [left; exact H| |];
  right; apply in_or_app; auto.
Qed.
Lemma feasible_ops x pb : feasible x pb <-> forall op c, In c (op_constraints op pb) -> csat op x c.
Proof.
  unfold feasible. split.
  - intros (H1 & H2 & H3) op c Hin. destruct op; cbn in *; auto.
  - intros H. split; [|split]; intros c Hc.
    + exact (H op_equal c Hc).
    + exact (H op_greater c Hc).
    + exact (H op_less c Hc).
Qed.

Lemma fill3_correct o1 o2 o3 pb :
  covers o1 o2 o3 ->
  match fill3 o1 o2 o3 pb with
  | Ok ret => forall x, fits_int x pb -> (sat_merged x ret <-> feasible x pb)
  | Throw => forall x, fits_int x pb -> ~ feasible x pb
  | Crash => False
  end.
Proof.
  intros Hcov. unfold fill3. rewrite fill_merged_unfold.
  set (F := fun x => fits_int x pb).
  assert (HF : forall op x c, F x -> In c (op_constraints op pb) -> cfits x c).
  { intros op x c Hx Hin. apply Hx. eapply op_constraints_in; eassumption. }
  pose proof (fill_list_correct o1 (op_constraints o1 pb) ([], []) F (fun _ => True)) as H1.
  specialize (H1 ltac:(intros k i []) ltac:(intros x _; split; [tauto|intros _ m []]) (HF o1)).
  destruct (fill_list (fill_step o1) ([], []) (op_constraints o1 pb)) as [s1| |]; cbn [obind].
  2:{ intros x Hx Hfe. rewrite feasible_ops in Hfe. exact (H1 x Hx I (Hfe o1)). }
  2:{ exact H1. }
  destruct H1 as [Hc1 Hm1]. rewrite fill_merged_unfold.
  pose proof (fill_list_correct o2 (op_constraints o2 pb) s1 F _ Hc1 Hm1 (HF o2)) as H2.
  destruct (fill_list (fill_step o2) s1 (op_constraints o2 pb)) as [s2| |]; cbn [obind].
  2:{ intros x Hx Hfe. rewrite feasible_ops in Hfe. exact (H2 x Hx (conj I (Hfe o1)) (Hfe o2)). }
  2:{ exact H2. }
  destruct H2 as [Hc2 Hm2]. rewrite fill_merged_unfold.
  pose proof (fill_list_correct o3 (op_constraints o3 pb) s2 F _ Hc2 Hm2 (HF o3)) as H3.
  destruct (fill_list (fill_step o3) s2 (op_constraints o3 pb)) as [s3| |]; cbn [obind].
  2:{ intros x Hx Hfe. rewrite feasible_ops in Hfe.
      exact (H3 x Hx (conj (conj I (Hfe o1)) (Hfe o2)) (Hfe o3)). }
  2:{ exact H3. }
  destruct H3 as [Hc3 Hm3]. intros x Hx. rewrite (Hm3 x Hx), feasible_ops. split.
  - intros [[[_ A] B] C] op c Hin. destruct (Hcov op) as [->|[->| ->]]; auto.
  - intros H. repeat split; intros; apply H; assumption.
Qed.

(** ** Where the merged constraints come from (indices stay valid). *)
Definition from_pb (pb : problem) (m : merged) : Prop :=
  exists c, In c (all_constraints pb) /\ m_elements m = c_elements c.

Lemma fill_step_from op s e s' (Q : list felem -> Prop) :
  fill_step op s e = Ok s' -> Q (c_elements e) -> (forall m, In m (snd s) -> Q (m_elements m)) ->
  forall m, In m (snd s') -> Q (m_elements m).
Proof.
  intros H HQ Hs m Hm. destruct s as [c ret]. cbn [snd] in Hs.
  assert (Hpush : forall a b i, In m (ret ++ [mk_merged (c_elements e) a b i]) -> Q (m_elements m)).
  { intros a b i Hi. apply in_app_or in Hi. destruct Hi as [Hi|[<-|[]]]; [auto|exact HQ]. }
  assert (Hupd : forall i z a b k ret', nth_error ret i = Some z ->
             list_upd ret i (mk_merged (m_elements z) a b k) = Some ret' -> In m ret' -> Q (m_elements m)).
  { intros i z a b k ret' Hz Hu Hi. apply In_nth_error in Hi. destruct Hi as [j Hj].
    rewrite (list_upd_nth _ _ _ _ j Hu) in Hj. destruct (Nat.eqb j i).
    - inversion Hj; subst m. cbn. apply Hs. eapply nth_error_In; eassumption.
    - apply Hs. eapply nth_error_In; eassumption. }
  destruct op; cbn in H;
    (destruct (cache_find c (c_elements e)) as [i|];
      [destruct (nth_error ret i) as [z|] eqn:Ez; cbn in H; [|discriminate]
      |inversion H; subst s'; eapply Hpush; exact Hm]).
  - destruct ((m_min z <=? c_value e) && (c_value e <=? m_max z)); [|discriminate].
    destruct (list_upd ret i _) as [ret'|] eqn:Eu; cbn in H; [|discriminate].
    inversion H; subst s'. eapply Hupd; [exact Ez|exact Eu|exact Hm].
  - destruct (list_upd ret i _) as [ret'|] eqn:Eu; cbn in H; [|discriminate].
    inversion H; subst s'. eapply Hupd; [exact Ez|exact Eu|exact Hm].
  - destruct (list_upd ret i _) as [ret'|] eqn:Eu; cbn in H; [|discriminate].
    inversion H; subst s'. eapply Hupd; [exact Ez|exact Eu|exact Hm].
Qed.

Lemma fill_list_from op l : forall s s' (Q : list felem -> Prop),
  fill_list (fill_step op) s l = Ok s' -> (forall c, In c l -> Q (c_elements c)) ->
  (forall m, In m (snd s) -> Q (m_elements m)) ->
  forall m, In m (snd s') -> Q (m_elements m).
Proof.
  induction l as [|e l IH]; intros s s' Q H Hl Hs; cbn in H.
  - inversion H; subst. assumption.
  - destruct (fill_step op s e) as [s1| |] eqn:E; cbn in H; try discriminate.
    apply (IH s1 s' Q H).
    + intros c Hc. apply Hl. right; assumption.
    + apply (fill_step_from op s e s1 Q E); [|assumption]. apply Hl. left; reflexivity.
Qed.

Lemma fill3_from o1 o2 o3 pb ret :
  fill3 o1 o2 o3 pb = Ok ret -> forall m, In m ret -> from_pb pb m.
Proof.
  unfold fill3. rewrite fill_merged_unfold. intros H m Hm.
  set (Q := fun l => exists c, In c (all_constraints pb) /\ l = c_elements c).
  assert (HQ : forall op c, In c (op_constraints op pb) -> Q (c_elements c)).
  { intros op c Hc. exists c. split; [eapply op_constraints_in; eassumption|reflexivity]. }
  destruct (fill_list (fill_step o1) ([], []) (op_constraints o1 pb)) as [s1| |] eqn:E1; cbn in H; try discriminate.
  rewrite fill_merged_unfold in H.
  destruct (fill_list (fill_step o2) s1 (op_constraints o2 pb)) as [s2| |] eqn:E2; cbn in H; try discriminate.
  rewrite fill_merged_unfold in H.
  destruct (fill_list (fill_step o3) s2 (op_constraints o3 pb)) as [s3| |] eqn:E3; cbn in H; try discriminate.
  inversion H; subst ret. change (Q (m_elements m)).
  apply (fill_list_from _ _ _ _ Q E3 (HQ o3)); [|assumption].
  apply (fill_list_from _ _ _ _ Q E2 (HQ o2)).
  apply (fill_list_from _ _ _ _ Q E1 (HQ o1)). intros z [].
Qed.

(** ** p1..p4 *)
Section WithSort.
Variable std_sort : forall A : Type, (A -> A -> bool) -> list A -> list A.
Variable ddiv : Z -> Z -> Z.
Hypothesis Hperm : permutes std_sort.

Lemma set_ids_spec l : forall r l', set_ids l r = Some l' -> Forall2 msame l' l.
Proof.
  induction l as [|m l IH]; intros r l' H; cbn in H.
  - inversion H; constructor.
  - destruct r as [|p r]; [discriminate|].
    destruct (set_ids l r) as [t|] eqn:E; cbn in H; [|discriminate]. inversion H; subst l'.
    constructor; [|eauto]. split; [reflexivity|split; reflexivity].
Qed.
Lemma set_ids_defined l : forall r, length r = length l -> exists l', set_ids l r = Some l'.
Proof.
  induction l as [|m l IH]; intros [|p r] H; cbn in *; try discriminate; [eauto|].
  destruct (IH r ltac:(lia)) as [t ->]. cbn. eauto.
Qed.

Lemma sort_elements_same lt l : Forall2 msame (map (sort_elements std_sort lt) l) l.
Proof.
  induction l as [|m l IH]; cbn; [constructor|]. constructor; [|assumption].
  split; [apply Hperm|split; reflexivity].
Qed.

Lemma count_degree_defined n l : forall d, length d = n -> (forall e, In e l -> (f_var e < n)%nat) ->
  exists d', count_degree l d = Some d' /\ length d' = n.
Proof.
  induction l as [|e l IH]; intros d Hd Hl; cbn; [eauto|].
  destruct (list_modify_some d (f_var e) (fun z => z + 1)) as (a & d' & _ & _ & Hm).
  { rewrite Hd. apply Hl. left; reflexivity. }
  rewrite Hm. cbn. apply IH.
  - rewrite (list_modify_length _ _ _ _ Hm). assumption.
  - intros z Hz. apply Hl. right; assumption.
Qed.
Lemma count_degrees_defined n l : forall d, length d = n ->
  (forall m e, In m l -> In e (m_elements m) -> (f_var e < n)%nat) ->
  exists d', count_degrees l d = Some d' /\ length d' = n.
Proof.
  induction l as [|m l IH]; intros d Hd Hl; cbn; [eauto|].
  destruct (count_degree_defined n (m_elements m) d Hd) as (d' & -> & Hd').
  { intros e He. eapply Hl; [left; reflexivity|exact He]. }
  cbn. apply IH; [assumption|]. intros z e Hz He. eapply Hl; [right; exact Hz|exact He].
Qed.
Lemma fill_costs_defined n degree l : forall cost, length degree = n -> length cost = n ->
  (forall e, In e l -> (o_var e < n)%nat) ->
  exists c', fill_costs ddiv degree l cost = Some c' /\ length c' = n.
Proof.
  induction l as [|e l IH]; intros cost Hd Hc Hl; cbn; [eauto|].
  assert (He : (o_var e < n)%nat) by (apply Hl; left; reflexivity).
  destruct (nth_error degree (o_var e)) as [d|] eqn:E; [|apply nth_error_None in E; lia].
  cbn. destruct (list_upd_some cost (o_var e) (ddiv (o_factor e) d) ltac:(lia)) as [c' Hu].
  rewrite Hu. cbn. apply IH; try assumption.
  - rewrite (list_upd_length _ _ _ _ Hu). assumption.
  - intros z Hz. apply Hl. right; assumption.
Qed.
Lemma min_ratio_defined n cost l : forall acc, length cost = n ->
  (forall e, In e l -> (f_var e < n)%nat) -> exists r, min_ratio cost l acc = Some r.
Proof.
  induction l as [|e l IH]; intros acc Hc Hl; cbn; [eauto|].
  assert (He : (f_var e < n)%nat) by (apply Hl; left; reflexivity).
  destruct (nth_error cost (f_var e)) as [d|] eqn:E; [|apply nth_error_None in E; lia].
  cbn. apply IH; [assumption|]. intros z Hz. apply Hl. right; assumption.
Qed.
Lemma ratios_defined n cost l : forall i, length cost = n ->
  (forall m, In m l -> m_elements m <> []) ->
  (forall m e, In m l -> In e (m_elements m) -> (f_var e < n)%nat) ->
  exists r, ratios cost l i = Some r /\ length r = length l.
Proof.
  induction l as [|m l IH]; intros i Hc Hne Hl; cbn [ratios]; [eauto|].
  destruct (m_elements m) as [|e0 es] eqn:Em.
  { exfalso. exact (Hne m (or_introl eq_refl) Em). }
  cbn [nth_error bind tl].
  assert (Hv : forall e, In e (e0 :: es) -> (f_var e < n)%nat).
  { intros e He. apply (Hl m e); [left; reflexivity|]. rewrite Em. exact He. }
  destruct (nth_error cost (f_var e0)) as [c0|] eqn:E.
  2:{ apply nth_error_None in E. pose proof (Hv e0 (or_introl eq_refl)). lia. }
  cbn [bind]. destruct (min_ratio_defined n cost es c0 Hc) as [r Hr].
  { intros e He. apply Hv. right; assumption. }
  rewrite Hr. cbn [bind].
  destruct (IH (i + 1) Hc) as (rs & -> & Hrs).
  { intros z Hz. apply Hne. right; assumption. }
  { intros z e Hz He. eapply Hl; [right; exact Hz|exact He]. }
  cbn [bind]. eexists. split; [reflexivity|]. cbn. lia.
Qed.
Lemma ratios_len cost l : forall i r, ratios cost l i = Some r -> length r = length l.
Proof.
  induction l as [|m l IH]; intros i r H; cbn in H.
  - inversion H; reflexivity.
  - destruct (m_elements m) as [|e0 es]; cbn in H; [discriminate|].
    destruct (nth_error cost (f_var e0)); cbn in H; [|discriminate].
    destruct (min_ratio _ _ _); cbn in H; [|discriminate].
    destruct (ratios cost l (i + 1)) as [rs|] eqn:E; cbn in H; [|discriminate].
    inversion H; subst r. cbn. f_equal. eauto.
Qed.

Definition good (pb : problem) (o : outcome (list merged)) : Prop :=
  match o with
  | Ok ret => forall x, fits_int x pb -> (sat_merged x ret <-> feasible x pb)
  | Throw => forall x, fits_int x pb -> ~ feasible x pb
  | Crash => ~ indices_ok pb
  end.

Lemma unsorted_good pb : good pb (make_unsorted std_sort pb).
Proof.
  unfold make_unsorted.
  pose proof (fill3_correct op_equal op_less op_greater pb) as H.
  specialize (H ltac:(intros []; auto)).
  destruct (fill3 op_equal op_less op_greater pb) as [ret| |]; cbn [obind good].
  - intros x Hx. rewrite (sat_merged_perm x _ _ (Hperm _ by_id ret)). apply H; assumption.
  - exact H.
  - contradiction.
Qed.
Lemma unsorted_from pb ret :
  make_unsorted std_sort pb = Ok ret -> forall m, In m ret -> from_pb pb m.
Proof.
  unfold make_unsorted. destruct (fill3 _ _ _ pb) as [r| |] eqn:E; cbn [obind]; try discriminate.
  intros H m Hm. inversion H; subst ret. apply (fill3_from _ _ _ _ _ E).
  eapply Permutation_in; [apply Hperm|exact Hm].
Qed.

Lemma ordered_good po pb :
  match po with po_none | po_memory | po_p1 | po_p2 | po_p3 | po_p4 => False | _ => True end ->
  good pb (make_ordered po pb).
Proof.
  intros Hpo. unfold make_ordered, good.
  destruct po; try contradiction;
  match goal with |- context [fill3 ?a ?b ?c pb] =>
    pose proof (fill3_correct a b c pb ltac:(intros []; auto)) as H;
    destruct (fill3 a b c pb); [exact H|exact H|contradiction] end.
Qed.

Lemma improve_good pb o :
  good pb o -> good pb (let! r := o in Ok (improve_memory_usage std_sort r)).
Proof.
  destruct o as [ret| |]; cbn; intros H; try assumption.
  intros x Hx. unfold improve_memory_usage.
  rewrite (sat_merged_same x _ _ (sort_elements_same by_var ret)). apply H; assumption.
Qed.

Lemma special_good po pb : good pb (make_special std_sort ddiv po pb).
Proof.
  unfold make_special. pose proof (unsorted_good pb) as H. pose proof (unsorted_from pb) as Hfrom.
  destruct (make_unsorted std_sort pb) as [csts| |]; cbn [obind]; [|exact H|exact H].
  specialize (Hfrom csts eq_refl). cbn [good] in H.
  set (n := length (v_values (p_vars pb))).
  assert (Hidx : indices_ok pb -> (forall m, In m csts -> m_elements m <> []) /\
            (forall m e, In m csts -> In e (m_elements m) -> (f_var e < n)%nat)).
  { intros (I1 & I2 & I3). split.
    - intros m Hm. destruct (Hfrom m Hm) as (c & Hc & ->). apply I1; assumption.
    - intros m e Hm He. destruct (Hfrom m Hm) as (c & Hc & Heq). rewrite Heq in He. eapply I2; eassumption. }
  assert (Hobj : indices_ok pb -> forall e, In e (o_elements (p_objective pb)) -> (o_var e < n)%nat)
    by (intros (_ & _ & I3); exact I3).
  destruct (count_degrees csts (repeat 0 n)) as [degree|] eqn:E1; cbn [of_opt obind].
  2:{ intros Hok. destruct (Hidx Hok) as [_ Hv].
      destruct (count_degrees_defined n csts (repeat 0 n) (repeat_length _ _) Hv) as (d & Hd & _). congruence. }
  destruct (fill_costs ddiv degree (o_elements (p_objective pb)) (repeat 0 n)) as [cost|] eqn:E2; cbn [of_opt obind].
  2:{ intros Hok. destruct (Hidx Hok) as [_ Hv].
      destruct (count_degrees_defined n csts (repeat 0 n) (repeat_length _ _) Hv) as (d & Hd & Hl).
      rewrite Hd in E1. inversion E1; subst d.
      destruct (fill_costs_defined n degree _ (repeat 0 n) Hl (repeat_length _ _) (Hobj Hok)) as (c' & Hc & _). congruence. }
  destruct (ratios cost csts 0) as [r|] eqn:E3; cbn [of_opt obind].
  2:{ intros Hok. destruct (Hidx Hok) as [Hne Hv].
      destruct (count_degrees_defined n csts (repeat 0 n) (repeat_length _ _) Hv) as (d & Hd & Hl).
      rewrite Hd in E1. inversion E1; subst d.
      destruct (fill_costs_defined n degree _ (repeat 0 n) Hl (repeat_length _ _) (Hobj Hok)) as (c' & Hc & Hlc).
      rewrite Hc in E2. inversion E2; subst c'.
      destruct (ratios_defined n cost csts 0 Hlc Hne Hv) as (r & Hr & _). congruence. }
  set (r' := match po with po_p1 => _ | _ => _ end).
  assert (Hr' : length r' = length csts).
  { rewrite <- (ratios_len _ _ _ _ E3). unfold r'.
    destruct po; apply Permutation_length, Hperm. }
  destruct (set_ids_defined csts r' Hr') as [csts' Hs]. rewrite Hs. cbn [of_opt obind good].
  intros x Hx. rewrite (sat_merged_same x _ _ (sort_elements_same _ _)).
  rewrite (sat_merged_perm x _ _ (Hperm _ by_id csts')).
  rewrite (sat_merged_same x _ _ (set_ids_spec _ _ _ Hs)). apply H; assumption.
Qed.

Lemma merged_good po pb : good pb (make_merged std_sort ddiv po pb).
Proof.
  destruct po; unfold make_merged;
    try (apply improve_good, ordered_good; exact I); try apply special_good.
  - apply unsorted_good.
  - apply improve_good, unsorted_good.
Qed.

(** Without the indices hypothesis, the only crash is in p1..p4. *)
Lemma merged_meaning po pb cs x :
  make_merged std_sort ddiv po pb = Ok cs -> fits_int x pb ->
  (sat_merged x cs <-> feasible x pb).
Proof. intros H Hx. pose proof (merged_good po pb) as G. rewrite H in G. exact (G x Hx). Qed.
Lemma merged_throw po pb x :
  make_merged std_sort ddiv po pb = Throw -> fits_int x pb -> ~ feasible x pb.
Proof. intros H Hx. pose proof (merged_good po pb) as G. rewrite H in G. exact (G x Hx). Qed.
Lemma merged_no_crash po pb : indices_ok pb -> make_merged std_sort ddiv po pb <> Crash.
Proof. intros H E. pose proof (merged_good po pb) as G. rewrite E in G. exact (G H). Qed.
End WithSort.

(** ** Distinct left-hand sides *)
Definition lhs_distinct (l : list merged) : Prop := NoDup (map m_elements l).
Definition cache_full (s : mstate) : Prop :=
  forall m, In m (snd s) -> exists i, In (m_elements m, i) (fst s).

Lemma NoDup_app_one {A} (l : list A) a : NoDup l -> ~ In a l -> NoDup (l ++ [a]).
Proof.
  induction l as [|b l IH]; intros Hn Hi; cbn; [constructor; [tauto|constructor]|].
  inversion Hn; subst. constructor.
  - intros Hin. apply in_app_or in Hin. destruct Hin as [Hin|[->|[]]]; [contradiction|].
    apply Hi. left; reflexivity.
  - apply IH; [assumption|]. intros Hin. apply Hi. right; assumption.
Qed.

Lemma map_list_upd {A B} (f : A -> B) l i a b l' :
  nth_error l i = Some b -> f a = f b -> list_upd l i a = Some l' -> map f l' = map f l.
Proof.
  intros Hi Hf Hu. apply nth_error_ext. intros k. rewrite !nth_error_map'.
  rewrite (list_upd_nth _ _ _ _ k Hu). destruct (Nat.eqb_spec k i) as [->|]; [|reflexivity].
  rewrite Hi. cbn. congruence.
Qed.

Lemma fill_step_distinct op s e s' :
  cache_full s -> lhs_distinct (snd s) -> fill_step op s e = Ok s' ->
  cache_full s' /\ lhs_distinct (snd s').
Proof.
  intros Hf Hd H. destruct s as [c ret]. unfold cache_full, lhs_distinct in *. cbn [fst snd] in *.
  assert (Push : forall a b i, cache_find c (c_elements e) = None ->
     let s2 := (cache_emplace c (c_elements e) (length ret), ret ++ [mk_merged (c_elements e) a b i]) in
     (forall m, In m (snd s2) -> exists j, In (m_elements m, j) (fst s2)) /\ NoDup (map m_elements (snd s2))).
  { intros a b i Hnone. cbn [fst snd]. split.
    - intros m Hm. apply in_app_or in Hm. unfold cache_emplace.
      destruct Hm as [Hm|[<-|[]]].
      + destruct (Hf m Hm) as [j Hj]. exists j. apply in_or_app. left; exact Hj.
      + eexists. apply in_or_app. right. left. reflexivity.
    - rewrite map_app. apply NoDup_app_one; [assumption|].
      intros Hin. apply in_map_iff in Hin. destruct Hin as (m & Hm & Hin). cbn in Hm.
      destruct (Hf m Hin) as [j Hj]. rewrite Hm in Hj. exact (cache_find_none _ _ Hnone j Hj). }
  assert (Upd : forall i z a b k ret', nth_error ret i = Some z ->
     list_upd ret i (mk_merged (m_elements z) a b k) = Some ret' ->
     (forall m, In m ret' -> exists j, In (m_elements m, j) c) /\ NoDup (map m_elements ret')).
  { intros i z a b k ret' Hz Hu.
    assert (Hm : map m_elements ret' = map m_elements ret) by (eapply map_list_upd; [exact Hz| |exact Hu]; reflexivity).
    split; [|rewrite Hm; assumption].
    intros m Hin. apply (in_map m_elements) in Hin. rewrite Hm in Hin. apply in_map_iff in Hin.
    destruct Hin as (m0 & He & Hin). rewrite <- He. apply Hf; assumption. }
  destruct op; cbn in H;
    (destruct (cache_find c (c_elements e)) as [i|] eqn:Ef;
      [destruct (nth_error ret i) as [z|] eqn:Ez; cbn in H; [|discriminate]
      |inversion H; subst s'; apply Push; reflexivity]).
  - destruct ((m_min z <=? c_value e) && (c_value e <=? m_max z)); [|discriminate].
    destruct (list_upd ret i _) as [ret'|] eqn:Eu; cbn in H; [|discriminate].
    inversion H; subst s'. cbn. eapply Upd; [exact Ez|exact Eu].
  - destruct (list_upd ret i _) as [ret'|] eqn:Eu; cbn in H; [|discriminate].
    inversion H; subst s'. cbn. eapply Upd; [exact Ez|exact Eu].
  - destruct (list_upd ret i _) as [ret'|] eqn:Eu; cbn in H; [|discriminate].
    inversion H; subst s'. cbn. eapply Upd; [exact Ez|exact Eu].
Qed.
Lemma fill_list_distinct op l : forall s s',
  cache_full s -> lhs_distinct (snd s) -> fill_list (fill_step op) s l = Ok s' ->
  cache_full s' /\ lhs_distinct (snd s').
Proof.
  induction l as [|e l IH]; intros s s' Hf Hd H; cbn in H.
  - inversion H; subst; auto.
  - destruct (fill_step op s e) as [s1| |] eqn:E; cbn in H; try discriminate.
    destruct (fill_step_distinct op s e s1 Hf Hd E). eauto.
Qed.
Lemma fill3_distinct o1 o2 o3 pb ret : fill3 o1 o2 o3 pb = Ok ret -> lhs_distinct ret.
Proof.
  unfold fill3. rewrite fill_merged_unfold. intros H.
  destruct (fill_list (fill_step o1) ([], []) (op_constraints o1 pb)) as [s1| |] eqn:E1; cbn in H; try discriminate.
  rewrite fill_merged_unfold in H.
  destruct (fill_list (fill_step o2) s1 (op_constraints o2 pb)) as [s2| |] eqn:E2; cbn in H; try discriminate.
  rewrite fill_merged_unfold in H.
  destruct (fill_list (fill_step o3) s2 (op_constraints o3 pb)) as [s3| |] eqn:E3; cbn in H; try discriminate.
  inversion H; subst ret.
  assert (F0 : cache_full ([], [])) by (intros m []).
  assert (D0 : lhs_distinct (snd (@nil (list felem * nat), @nil merged))) by constructor.
  destruct (fill_list_distinct _ _ _ _ F0 D0 E1) as [F1 D1].
  destruct (fill_list_distinct _ _ _ _ F1 D1 E2) as [F2 D2].
  destruct (fill_list_distinct _ _ _ _ F2 D2 E3) as [F3 D3]. exact D3.
Qed.
Lemma none_distinct std_sort ddiv pb cs :
  permutes std_sort -> make_merged std_sort ddiv po_none pb = Ok cs -> NoDup (map m_elements cs).
Proof.
  intros Hp. unfold make_merged, make_unsorted.
  destruct (fill3 _ _ _ pb) as [ret| |] eqn:E; cbn; try discriminate.
  intros H. inversion H; subst cs. apply fill3_distinct in E. unfold lhs_distinct in E.
  eapply Permutation_NoDup; [|exact E]. apply Permutation_map, Permutation_sym, Hp.
Qed.

(** ** Order of the merged constraints *)
Definition mkey (m : merged) := (m_elements m, m_id m).

Lemma felems_in_spec k seen : felems_in k seen = true <-> In k seen.
Proof.
  unfold felems_in. rewrite existsb_exists. split.
  - intros (x & Hin & He). destruct (felems_eqb_spec k x); [subst; assumption|discriminate].
  - intros Hin. exists k. split; [assumption|]. destruct (felems_eqb_spec k k); [reflexivity|congruence].
Qed.
Lemma firsts_app seen l1 l2 :
  firsts seen (l1 ++ l2) = firsts seen l1 ++ firsts (seen ++ map fst (firsts seen l1)) l2.
Proof.
  revert seen; induction l1 as [|c l1 IH]; intros seen; cbn [firsts app map].
  - rewrite app_nil_r. reflexivity.
  - destruct (felems_in (c_elements c) seen); [apply IH|].
    cbn [map fst app]. rewrite IH, <- app_assoc. reflexivity.
Qed.

Lemma fill_step_keys op s e s' :
  cache_ok s -> cache_full s -> fill_step op s e = Ok s' ->
  map mkey (snd s') =
    map mkey (snd s) ++ (if felems_in (c_elements e) (map m_elements (snd s)) then [] else [(c_elements e, c_id e)]).
Proof.
  intros Hc Hf H. destruct s as [c ret]. cbn [snd] in *.
  assert (Hin : felems_in (c_elements e) (map m_elements ret) =
                match cache_find c (c_elements e) with Some _ => true | None => false end).
  { destruct (cache_find c (c_elements e)) as [i|] eqn:E.
    - apply felems_in_spec. apply cache_find_some in E. destruct (Hc _ _ E) as (m & Hm & Hk).
      rewrite <- Hk. apply in_map. eapply nth_error_In; exact Hm.
    - destruct (felems_in (c_elements e) (map m_elements ret)) eqn:E2; [|reflexivity].
      apply felems_in_spec, in_map_iff in E2. destruct E2 as (m & Hm & Hi).
      destruct (Hf m Hi) as [j Hj]. rewrite Hm in Hj. exfalso. exact (cache_find_none _ _ E j Hj). }
  rewrite Hin.
  destruct op; cbn in H;
    (destruct (cache_find c (c_elements e)) as [i|] eqn:Ef;
      [destruct (nth_error ret i) as [z|] eqn:Ez; cbn in H; [|discriminate]; rewrite app_nil_r
      |inversion H; subst s'; cbn [snd]; rewrite map_app; reflexivity]).
  - destruct ((m_min z <=? c_value e) && (c_value e <=? m_max z)); [|discriminate].
    destruct (list_upd ret i _) as [ret'|] eqn:Eu; cbn in H; [|discriminate].
    inversion H; subst s'. cbn. eapply map_list_upd; [exact Ez| |exact Eu]; reflexivity.
  - destruct (list_upd ret i _) as [ret'|] eqn:Eu; cbn in H; [|discriminate].
    inversion H; subst s'. cbn. eapply map_list_upd; [exact Ez| |exact Eu]; reflexivity.
  - destruct (list_upd ret i _) as [ret'|] eqn:Eu; cbn in H; [|discriminate].
    inversion H; subst s'. cbn. eapply map_list_upd; [exact Ez| |exact Eu]; reflexivity.
Qed.

Definition s_inv (s : mstate) : Prop := cache_ok s /\ cache_full s /\ lhs_distinct (snd s).
Lemma fill_list_keys op l : forall s s',
  s_inv s -> fill_list (fill_step op) s l = Ok s' ->
  s_inv s' /\ map mkey (snd s') = map mkey (snd s) ++ firsts (map m_elements (snd s)) l.
Proof.
  induction l as [|e l IH]; intros s s' (Hc & Hf & Hd) H; cbn in H.
  - inversion H; subst. split; [split; [assumption|split; assumption]|]. cbn. rewrite app_nil_r. reflexivity.
  - destruct (fill_step op s e) as [s1| |] eqn:E; cbn in H; try discriminate.
    pose proof (fill_step_correct op s e Hc) as HC. rewrite E in HC. destruct HC as [Hc1 _].
    destruct (fill_step_distinct op s e s1 Hf Hd E) as [Hf1 Hd1].
    pose proof (fill_step_keys op s e s1 Hc Hf E) as HK.
    destruct (IH s1 s' (conj Hc1 (conj Hf1 Hd1)) H) as [Hi Hk]. split; [assumption|].
    rewrite Hk, HK. rewrite <- app_assoc. f_equal. cbn [firsts].
    assert (Hme : map m_elements (snd s1) = map m_elements (snd s) ++
       (if felems_in (c_elements e) (map m_elements (snd s)) then [] else [c_elements e])).
    { transitivity (map fst (map mkey (snd s1))); [rewrite map_map; reflexivity|].
      rewrite HK, map_app, map_map. f_equal. destruct (felems_in _ _); reflexivity. }
    rewrite Hme. destruct (felems_in (c_elements e) (map m_elements (snd s))).
    + rewrite app_nil_r. reflexivity.
    + reflexivity.
Qed.

Lemma fill3_keys o1 o2 o3 pb ret :
  fill3 o1 o2 o3 pb = Ok ret ->
  map mkey ret = firsts [] (op_constraints o1 pb ++ op_constraints o2 pb ++ op_constraints o3 pb).
Proof.
  unfold fill3. rewrite fill_merged_unfold. intros H.
  destruct (fill_list (fill_step o1) ([], []) (op_constraints o1 pb)) as [s1| |] eqn:E1; cbn in H; try discriminate.
  rewrite fill_merged_unfold in H.
  destruct (fill_list (fill_step o2) s1 (op_constraints o2 pb)) as [s2| |] eqn:E2; cbn in H; try discriminate.
  rewrite fill_merged_unfold in H.
  destruct (fill_list (fill_step o3) s2 (op_constraints o3 pb)) as [s3| |] eqn:E3; cbn in H; try discriminate.
  inversion H; subst ret.
  assert (I0 : s_inv ([], [])).
  { split; [intros k i []|]. split; [intros m []|constructor]. }
  destruct (fill_list_keys _ _ _ _ I0 E1) as [I1 K1].
  destruct (fill_list_keys _ _ _ _ I1 E2) as [I2 K2].
  destruct (fill_list_keys _ _ _ _ I2 E3) as [I3 K3].
  cbn [snd map app] in K1.
  assert (M1 : map m_elements (snd s1) = map fst (firsts [] (op_constraints o1 pb))).
  { rewrite <- K1, map_map. reflexivity. }
  assert (M2 : map m_elements (snd s2) = map m_elements (snd s1) ++
      map fst (firsts (map m_elements (snd s1)) (op_constraints o2 pb))).
  { transitivity (map fst (map mkey (snd s2))); [rewrite map_map; reflexivity|].
    rewrite K2, map_app, map_map. reflexivity. }
  rewrite K3, K2, K1. rewrite !firsts_app. cbn [app]. rewrite <- !app_assoc. f_equal.
  rewrite M1. f_equal. rewrite M2, M1. reflexivity.
Qed.

Lemma by_type_order std_sort ddiv po pb cs :
  permutes std_sort -> sorts std_sort -> by_type po -> make_merged std_sort ddiv po pb = Ok cs ->
  Forall2 (fun m k => Permutation (m_elements m) (fst k) /\ m_id m = snd k /\
                      StronglySorted (fun a b => (f_var a <= f_var b)%nat) (m_elements m))
          cs (firsts [] (type_order po pb)).
Proof.
  intros Hp Hs Hpo H.
  assert (Hgen : exists ret, map mkey ret = firsts [] (type_order po pb) /\
                 cs = improve_memory_usage std_sort ret).
  { unfold make_merged, make_ordered in H.
    destruct po; cbn in Hpo; try contradiction;
    match type of H with context [fill3 ?a ?b ?c pb] =>
      destruct (fill3 a b c pb) as [ret| |] eqn:E; cbn in H; try discriminate;
      exists ret; split; [apply (fill3_keys _ _ _ _ _ E)|inversion H; reflexivity] end. }
  destruct Hgen as (ret & Hk & ->). rewrite <- Hk. clear Hk H Hpo.
  unfold improve_memory_usage. induction ret as [|m ret IH]; cbn; constructor; [|assumption].
  cbn. split; [apply Hp|]. split; [reflexivity|].
  assert (Hso : StronglySorted (fun a b => by_var b a = false) (std_sort felem by_var (m_elements m))).
  { apply Hs; unfold by_var.
    - intros a. apply Nat.ltb_irrefl.
    - intros a b c H1 H2. apply Nat.ltb_lt in H1, H2. apply Nat.ltb_lt. lia.
    - intros a b c H1 H2. apply Nat.ltb_ge in H1, H2. apply Nat.ltb_ge. lia. }
  induction Hso as [|a l Hso IHs Hall]; constructor; [assumption|].
  rewrite Forall_forall in *. intros z Hz. specialize (Hall z Hz). unfold by_var in Hall.
  apply Nat.ltb_ge in Hall. exact Hall.
Qed.

Lemma none_sorted std_sort ddiv pb cs :
  sorts std_sort -> make_merged std_sort ddiv po_none pb = Ok cs ->
  StronglySorted (fun a b => m_id a <= m_id b) cs.
Proof.
  intros Hs. unfold make_merged, make_unsorted.
  destruct (fill3 _ _ _ pb) as [ret| |] eqn:E; cbn; try discriminate.
  intros H. inversion H; subst cs.
  assert (Hso : StronglySorted (fun a b => by_id b a = false) (std_sort merged by_id ret)).
  { apply Hs; unfold by_id.
    - intros a. apply Z.ltb_irrefl.
    - intros a b c H1 H2. apply Z.ltb_lt in H1, H2. apply Z.ltb_lt. lia.
    - intros a b c H1 H2. apply Z.ltb_ge in H1, H2. apply Z.ltb_ge. lia. }
  clear H. induction Hso as [|a l Hso IHs Hall]; constructor; [exact IHs|].
  rewrite Forall_forall in *; intros z Hz; specialize (Hall z Hz); unfold by_id in Hall.
  apply Z.ltb_ge in Hall; exact Hall.
Qed.

(** ** Every constraint has a row, and every row comes from a constraint *)
Lemma firsts_covers l : forall seen c, In c l -> In (c_elements c) seen \/ In (c_elements c) (map fst (firsts seen l)).
Proof.
  induction l as [|a l IH]; intros seen c []; cbn [firsts].
  - subst a. destruct (felems_in (c_elements c) seen) eqn:E; [left; apply felems_in_spec; assumption|right; left; reflexivity].
  - destruct (felems_in (c_elements a) seen).
    + apply IH; assumption.
    + destruct (IH (seen ++ [c_elements a]) c H) as [G|G]; [|right; right; assumption].
      apply in_app_or in G. destruct G as [G|[<-|[]]]; [left; assumption|right; left; reflexivity].
Qed.
Definition rows_of (pb : problem) (cs : list merged) : Prop :=
  (forall c, In c (all_constraints pb) -> exists m, In m cs /\ Permutation (m_elements m) (c_elements c)) /\
  (forall m, In m cs -> exists c, In c (all_constraints pb) /\ Permutation (m_elements m) (c_elements c)).
Lemma fill3_rows o1 o2 o3 pb ret : (forall op, op = o1 \/ op = o2 \/ op = o3) -> fill3 o1 o2 o3 pb = Ok ret -> rows_of pb ret.
Proof.
  intros Hops H. split.
  - intros c Hc. pose proof (fill3_keys _ _ _ _ _ H) as Hk.
    assert (Hin : In c (op_constraints o1 pb ++ op_constraints o2 pb ++ op_constraints o3 pb)).
    { unfold all_constraints in Hc. rewrite !in_app_iff in *.
      assert (G : forall op, In c (op_constraints op pb) -> In c (op_constraints o1 pb) \/ In c (op_constraints o2 pb) \/ In c (op_constraints o3 pb)).
      { intros op Hop. destruct (Hops op) as [->|[->| ->]]; auto. }
      destruct Hc as [Hc|[Hc|Hc]]; [apply (G op_equal)|apply (G op_greater)|apply (G op_less)]; exact Hc. }
    destruct (firsts_covers _ [] c Hin) as [[]|G]. rewrite <- Hk, map_map in G. apply in_map_iff in G.
    destruct G as (m & Hm & Hin'). exists m. split; [assumption|]. cbn in Hm. rewrite Hm. reflexivity.
  - intros m Hm. destruct (fill3_from _ _ _ _ _ H m Hm) as (c & Hc & ->). exists c. split; [assumption|reflexivity].
Qed.
Lemma rows_of_same pb a b : Forall2 msame b a -> rows_of pb a -> rows_of pb b.
Proof.
  intros HF [H1 H2]. split.
  - intros c Hc. destruct (H1 c Hc) as (m & Hm & Hp). clear H1 H2.
    induction HF as [|m' m0 b a Hs HF IH]; [destruct Hm|]. destruct Hm as [->|Hm].
    + exists m'. split; [left; reflexivity|]. etransitivity; [apply Hs|exact Hp].
    + destruct (IH Hm) as (m1 & G1 & G2). exists m1. split; [right; assumption|assumption].
  - intros m' Hm. assert (G : exists m, In m a /\ msame m' m).
    { clear H1 H2. induction HF as [|m1 m0 b a Hs HF IH]; [destruct Hm|]. destruct Hm as [->|Hm].
      - exists m0. split; [left; reflexivity|assumption].
      - destruct (IH Hm) as (m2 & G1 & G2). exists m2. split; [right; assumption|assumption]. }
    destruct G as (m & G1 & G2). destruct (H2 m G1) as (c & Hc & Hp). exists c. split; [assumption|].
    etransitivity; [apply G2|exact Hp].
Qed.
Lemma rows_of_perm pb a b : Permutation b a -> rows_of pb a -> rows_of pb b.
Proof.
  intros Hp [H1 H2]. split.
  - intros c Hc. destruct (H1 c Hc) as (m & Hm & G). exists m. split; [|assumption]. eapply Permutation_in; [symmetry; exact Hp|assumption].
  - intros m Hm. apply H2. eapply Permutation_in; eassumption.
Qed.
Lemma merged_rows std_sort ddiv po pb cs : permutes std_sort -> make_merged std_sort ddiv po pb = Ok cs -> rows_of pb cs.
Proof.
  intros Hperm H.
  assert (Hu : forall r, make_unsorted std_sort pb = Ok r -> rows_of pb r).
  { intros r Hr. unfold make_unsorted in Hr. destruct (fill3 _ _ _ pb) as [r0| |] eqn:E; cbn [obind] in Hr; try discriminate.
    inversion Hr; subst r. eapply rows_of_perm; [apply Hperm|]. eapply fill3_rows; [|exact E]. intros []; auto. }
  assert (Hi : forall (o : outcome (list merged)), (forall r, o = Ok r -> rows_of pb r) -> forall r, (let! r := o in Ok (improve_memory_usage std_sort r)) = Ok r -> rows_of pb r).
  { intros [r0| |] Ho r Hr; cbn [obind] in Hr; try discriminate. inversion Hr; subst r. unfold improve_memory_usage.
    eapply rows_of_same; [apply sort_elements_same; assumption|]. apply Ho. reflexivity. }
  assert (Ho : forall r, make_ordered po pb = Ok r -> po <> po_none -> po <> po_memory -> (forall p, In p [po_p1; po_p2; po_p3; po_p4] -> po <> p) -> rows_of pb r).
  { intros r Hr N1 N2 N3. unfold make_ordered in Hr. destruct po; try congruence;
      try (exfalso; eapply N3; [|reflexivity]; cbn; tauto);
      (eapply fill3_rows; [|exact Hr]; intros []; auto). }
  assert (Hs : make_special std_sort ddiv po pb = Ok cs -> rows_of pb cs).
  { unfold make_special. intros Hm. destruct (make_unsorted std_sort pb) as [r0| |] eqn:E; cbn [obind] in Hm; try discriminate.
    destruct (count_degrees _ _); cbn [of_opt obind] in Hm; try discriminate.
    destruct (fill_costs _ _ _ _); cbn [of_opt obind] in Hm; try discriminate.
    destruct (ratios _ _ _); cbn [of_opt obind] in Hm; try discriminate.
    match type of Hm with context [set_ids ?a ?b] => destruct (set_ids a b) eqn:Es end; cbn [of_opt obind] in Hm; try discriminate.
    inversion Hm; subst cs. eapply rows_of_same; [apply sort_elements_same; assumption|].
    eapply rows_of_perm; [apply Hperm|]. eapply rows_of_same; [eapply set_ids_spec; exact Es|]. apply Hu. reflexivity. }
  unfold make_merged in H. destruct po; try (apply Hs; exact H); try (apply Hu; exact H);
    (eapply Hi; [|exact H]; first [exact Hu | intros r Hr; apply Ho; [exact Hr|discriminate|discriminate|intros p Hp E; subst p; cbn in Hp; intuition discriminate]]).
Qed.
