(** Proofs about the preprocessor: unused variables, rebuilding the problem, and the
    composition. *)
From Verif Require Import Base Problem_model Problem_spec Merged_model Merged_spec Merged_proofs Classify_model
  Preprocess_model Preprocess_spec Preprocess_proofs.
Open Scope Z_scope.

(** ** Unused variables *)
Lemma any_pos_spec cnt idx : (forall i, In i idx -> (i < length cnt)%nat) ->
  exists b, any_pos cnt idx = Some b /\
    (b = true <-> exists i k, In i idx /\ nth_error cnt i = Some k /\ (0 < k)%nat).
Proof.
  unfold any_pos. induction idx as [|i idx IH]; intros H; cbn [fold_right].
  - exists false. split; [reflexivity|]. split; [discriminate|]. intros (i & k & [] & _).
  - destruct (nth_error cnt i) as [k|] eqn:E.
    2:{ apply nth_error_None in E. specialize (H i (or_introl eq_refl)). lia. }
    destruct (IH (fun j Hj => H j (or_intror Hj))) as (b & Hb & Hs). rewrite Hb. cbn [bind].
    exists (Nat.ltb 0 k || b). split; [reflexivity|]. rewrite orb_true_iff, Hs, Nat.ltb_lt. split.
    + intros [Hk|(j & kj & Hj & Hkj & Hp)]; [exists i, k; auto using in_eq|]. exists j, kj. auto using in_cons.
    + intros (j & kj & [<-|Hj] & Hkj & Hp).
      * left. rewrite E in Hkj. inversion Hkj; subst; assumption.
      * right. exists j, kj. auto.
Qed.

Section Rebuild.
Variable pb : problem.
Let n := length (v_values (p_vars pb)).
Variable ch : caches.
Hypothesis Hch : make_caches pb = Some ch.

(** No constraint still counted mentions [v]. *)
Definition unused (s : pstate) (v : nat) : Prop :=
  forall op i c k, nth_error (op_constraints op pb) i = Some c -> nth_error (cnt_of op s) i = Some k ->
    mentions v c -> k = 0%nat.
Definition cnt_lengths (s : pstate) : Prop :=
  forall op, length (cnt_of op s) = length (op_constraints op pb).

Lemma is_unused_spec s v : (v < n)%nat -> cnt_lengths s ->
  exists u, is_unused_variable ch s v = Some u /\ (u = true <-> unused s v).
Proof.
  intros Hv Hl. unfold is_unused_variable.
  pose proof (fun op => proj2 (cache_of_spec pb ch Hch op) v Hv) as P.
  assert (Q : forall op, exists b, any_pos (cnt_of op s) (positions v (op_constraints op pb) 0) = Some b /\
     (b = true <-> exists i k, In i (positions v (op_constraints op pb) 0) /\ nth_error (cnt_of op s) i = Some k /\ (0 < k)%nat)).
  { intros op. apply any_pos_spec. intros i Hi. rewrite (Hl op). eapply positions_lt; eassumption. }
  pose proof (P op_equal) as Pe. pose proof (P op_greater) as Pg. pose proof (P op_less) as Pl.
  destruct (Q op_equal) as (e & Qe & He). destruct (Q op_greater) as (g & Qg & Hg). destruct (Q op_less) as (l & Ql & Hl').
  cbn [cache_of cnt_of op_constraints] in *.
  rewrite Pe. cbn [bind]. rewrite Qe. cbn [bind]. rewrite Pg. cbn [bind]. rewrite Qg. cbn [bind].
  rewrite Pl. cbn [bind]. rewrite Ql. cbn [bind]. eexists. split; [reflexivity|].
  rewrite negb_true_iff, !orb_false_iff, <- !not_true_iff_false, He, Hg, Hl'. clear - Hch. split.
  - intros [[H1 H2] H3] op i c k Hc Hk Hm. destruct k as [|k]; [reflexivity|]. exfalso.
    assert (Hp : In i (positions v (op_constraints op pb) 0)).
    { apply positions_in. split; [lia|]. rewrite Nat.sub_0_r. exists c; auto. }
    destruct op; cbn [cnt_of op_constraints] in *; [apply H1|apply H2|apply H3]; exists i, (S k); auto with arith.
  - intros H.
    assert (G : forall op, ~ exists i k, In i (positions v (op_constraints op pb) 0) /\ nth_error (cnt_of op s) i = Some k /\ (0 < k)%nat).
    { intros op (i & k & Hi & Hk & Hp). apply positions_in in Hi. destruct Hi as (_ & c & Hc & Hm).
      rewrite Nat.sub_0_r in Hc. rewrite (H op i c k Hc Hk Hm) in Hp. lia. }
    split; [split; [exact (G op_equal)|exact (G op_greater)]|exact (G op_less)].
Qed.

Definition removed (s : pstate) (vars U : vmap) (is : list nat) : Prop :=
  (forall i b, In (i, b) U -> In i is /\ ~ In i (vkeys vars) /\ unused s i /\ b = unused_value pb i) /\
  NoDup (vkeys (vars ++ U)) /\
  (forall i, In i is -> In i (vkeys (vars ++ U)) \/ ~ unused s i).

Lemma remove_unused_spec s is : forall vars,
  NoDup (vkeys vars) -> (forall i, In i is -> (i < n)%nat) -> cnt_lengths s ->
  exists U, remove_unused pb ch s is vars = Some (vars ++ U) /\ removed s vars U is.
Proof.
  induction is as [|i is IH]; intros vars Hnd His Hl; cbn [remove_unused].
  - exists []. rewrite app_nil_r. split; [reflexivity|]. split; [intros i b []|]. rewrite app_nil_r.
    split; [assumption|intros i []].
  - assert (His' : forall j, In j is -> (j < n)%nat) by (intros j Hj; apply His; right; assumption).
    destruct (vfind vars i) as [b|] eqn:E.
    + destruct (IH vars Hnd His' Hl) as (U & H1 & H2 & H3 & H4). exists U. split; [assumption|]. split; [|split; [assumption|]].
      * intros j d Hj. destruct (H2 j d Hj) as (G1 & G2). split; [right; assumption|assumption].
      * intros j [<-|Hj]; [|auto]. left. apply vfind_some in E. apply vkeys_in. exists b. apply in_or_app; left; assumption.
    + destruct (is_unused_spec s i (His i (or_introl eq_refl)) Hl) as (u & Hu & Hus). rewrite Hu. cbn [bind].
      destruct u.
      * destruct (IH (vars ++ [(i, unused_value pb i)])) as (U & H1 & H2 & H3 & H4).
        { unfold vkeys. rewrite map_app. apply NoDup_app_one; [assumption|]. apply vfind_none. assumption. }
        { assumption. } { assumption. }
        exists ((i, unused_value pb i) :: U). rewrite <- app_assoc in H1, H3, H4. cbn [app] in H1, H3, H4.
        split; [assumption|]. split; [|split; [assumption|]].
        -- intros j d [Hj|Hj].
           ++ inversion Hj; subst. split; [left; reflexivity|]. split; [apply vfind_none; assumption|].
              split; [apply Hus; reflexivity|reflexivity].
           ++ destruct (H2 j d Hj) as (G1 & G2 & G3 & G4). split; [right; assumption|]. split; [|auto].
              intros Hin. apply G2. unfold vkeys. rewrite map_app. apply in_or_app; left; assumption.
        -- intros j [<-|Hj]; [|auto]. left. apply vkeys_in. exists (unused_value pb i).
           apply in_or_app; right; left; reflexivity.
      * destruct (IH vars Hnd His' Hl) as (U & H1 & H2 & H3 & H4). exists U. split; [assumption|]. split; [|split; [assumption|]].
        -- intros j d Hj. destruct (H2 j d Hj) as (G1 & G2). split; [right; assumption|assumption].
        -- intros j [<-|Hj]; [|auto]. right. intros Hc. apply Hus in Hc. discriminate.
Qed.

Lemma make_lp_defined s : cnt_lengths s -> exists mo, make_lp_from_bqp_objective pb ch s = Some mo.
Proof.
  intros Hl. unfold make_lp_from_bqp_objective.
  rewrite (proj1 (cache_of_spec pb ch Hch op_equal) : length (in_equal ch) = n).
  assert (H : forall is mo, (forall i, In i is -> (i < n)%nat) -> exists mo',
    fold_left (fun acc i => do mo <- acc;
      match vfind (s_vars s) i with
      | Some _ => Some mo
      | None => do u <- is_unused_variable ch s i;
                Some (if u then fold_left (fun m q => bqp_elem (p_type pb) i q m) (o_qelements (p_objective pb)) mo else mo)
      end) is (Some mo) = Some mo').
  { induction is as [|i is IH]; intros mo Hi; cbn [fold_left]; [eauto|]. cbn [bind].
    destruct (vfind (s_vars s) i); [apply IH; auto using in_cons|].
    destruct (is_unused_spec s i (Hi i (or_introl eq_refl)) Hl) as (u & -> & _). cbn [bind].
    apply IH; auto using in_cons. }
  apply H. intros i Hi. apply in_seq in Hi. lia.
Qed.
Lemma make_lp_linear s mo : o_qelements (p_objective pb) = [] -> make_lp_from_bqp_objective pb ch s = Some mo ->
  mo = mk_merge_obj [] 0.
Proof.
  intros Hq. unfold make_lp_from_bqp_objective. rewrite Hq. cbn [fold_left].
  assert (G : forall is (acc : option merge_obj), (forall m, acc = Some m -> m = mk_merge_obj [] 0) ->
    forall mo, fold_left (fun acc i => do mo0 <- acc;
      match vfind (s_vars s) i with
      | Some _ => Some mo0
      | None => do u <- is_unused_variable ch s i; Some (if u then mo0 else mo0)
      end) is acc = Some mo -> mo = mk_merge_obj [] 0).
  { induction is as [|i is IH]; intros acc Ha mo' H; cbn [fold_left] in H; [auto|].
    apply (IH _ ) in H; [assumption|]. intros m Hm. destruct acc as [m0|]; cbn [bind] in Hm; [|discriminate].
    destruct (vfind (s_vars s) i); [inversion Hm; subst; auto|].
    destruct (is_unused_variable ch s i) as [u|]; cbn [bind] in Hm; [|discriminate].
    destruct u; inversion Hm; subst; auto. }
  apply G. intros m H; inversion H; reflexivity.
Qed.
End Rebuild.

(** ** The mapping *)
Definition free (vars : vmap) (i : nat) : bool := match vfind vars i with None => true | Some _ => false end.
Definition kept (vars : vmap) (n : nat) : list nat := filter (free vars) (seq 0 n).

Lemma make_mapping_nth vars is : forall c p i, nth_error is p = Some i ->
  match vfind vars i with
  | Some b => nth_error (make_mapping vars is c) p = Some (None, b)
  | None => exists j, nth_error (make_mapping vars is c) p = Some (Some (c + j)%nat, false) /\
                      nth_error (filter (free vars) is) j = Some i
  end.
Proof.
  induction is as [|a is IH]; intros c p i Hp; [destruct p; discriminate|].
  cbn [make_mapping filter]. destruct p as [|p]; cbn [nth_error] in Hp.
  - inversion Hp; subst a. unfold free. destruct (vfind vars i) as [b|]; [reflexivity|].
    exists 0%nat. rewrite Nat.add_0_r. split; reflexivity.
  - unfold free at 1. destruct (vfind vars a) as [b|].
    + specialize (IH c p i Hp). destruct (vfind vars i); exact IH.
    + specialize (IH (S c) p i Hp). destruct (vfind vars i); [exact IH|].
      destruct IH as (j & H1 & H2). exists (S j). split; [|exact H2]. cbn [nth_error]. rewrite H1.
      f_equal. f_equal. f_equal. lia.
Qed.
Lemma make_mapping_length vars is : forall c, length (make_mapping vars is c) = length is.
Proof.
  induction is as [|i is IH]; intros c; cbn [make_mapping]; [reflexivity|].
  destruct (vfind vars i); cbn [length]; rewrite IH; reflexivity.
Qed.
Lemma mapping_nth vars n i : (i < n)%nat ->
  match vfind vars i with
  | Some b => nth_error (make_mapping vars (seq 0 n) 0) i = Some (None, b)
  | None => exists j, nth_error (make_mapping vars (seq 0 n) 0) i = Some (Some j, false) /\
                      nth_error (kept vars n) j = Some i
  end.
Proof.
  intros Hi. apply (make_mapping_nth vars (seq 0 n) 0 i i). rewrite nth_error_seq.
  destruct (Nat.ltb_spec i n); [reflexivity|lia].
Qed.

Lemma kept_nodup vars n : NoDup (kept vars n).
Proof. apply NoDup_filter, seq_NoDup. Qed.
Lemma kept_in vars n i : In i (kept vars n) <-> (i < n)%nat /\ vfind vars i = None.
Proof.
  unfold kept. rewrite filter_In, in_seq. unfold free. destruct (vfind vars i); intuition; discriminate.
Qed.
Lemma kept_length vars n : NoDup (vkeys vars) -> (forall v, In v (vkeys vars) -> (v < n)%nat) ->
  length (kept vars n) = (n - length vars)%nat.
Proof.
  intros Hnd Hlt.
  assert (Hp : Permutation (seq 0 n) (kept vars n ++ vkeys vars)).
  { apply NoDup_Permutation.
    - apply seq_NoDup.
    - apply NoDup_app'; [apply kept_nodup|assumption|]. intros v Hv Hv'. apply kept_in in Hv.
      destruct Hv as [_ Hv]. apply vfind_none in Hv. contradiction.
    - intros v. rewrite in_app_iff, kept_in, in_seq. split.
      + intros Hv. destruct (vfind vars v) as [b|] eqn:E; [right|left; split; [lia|reflexivity]].
        apply vkeys_in. exists b. apply vfind_some. assumption.
      + intros [[Hv _]|Hv]; [lia|]. specialize (Hlt v Hv). lia. }
  apply Permutation_length in Hp. rewrite seq_length, app_length in Hp.
  unfold vkeys in Hp. rewrite map_length in Hp. lia.
Qed.

(** [y] on kept variables, [x] on all of them. *)
Definition compat (vars : vmap) (n : nat) (y x : assignment) : Prop :=
  (forall i b, (i < n)%nat -> vfind vars i = Some b -> x i = b) /\
  (forall j i, nth_error (kept vars n) j = Some i -> x i = y j).

Lemma compat_map vars n y x i mi : compat vars n y x -> (i < n)%nat ->
  nth_error (make_mapping vars (seq 0 n) 0) i = Some mi ->
  match fst mi with Some j => x i = y j /\ (j < length (kept vars n))%nat | None => x i = snd mi end.
Proof.
  intros [H1 H2] Hi Hm. pose proof (mapping_nth vars n i Hi) as H.
  destruct (vfind vars i) as [b|] eqn:E.
  - rewrite H in Hm. inversion Hm; subst. cbn. auto.
  - destruct H as (j & Hj & Hk). rewrite Hj in Hm. inversion Hm; subst. cbn. split; [auto|].
    apply nth_error_Some. congruence.
Qed.
Lemma mapping_defined vars n i mi : nth_error (make_mapping vars (seq 0 n) 0) i = Some mi -> (i < n)%nat.
Proof.
  intros H. assert (nth_error (make_mapping vars (seq 0 n) 0) i <> None) by congruence.
  apply nth_error_Some in H0. rewrite make_mapping_length, seq_length in H0. assumption.
Qed.

Section Copy.
Variable vars : vmap.
Variable n : nat.
Let m := make_mapping vars (seq 0 n) 0.

Lemma copy_elements_lhs y x l : compat vars n y x -> forall v l' v',
  copy_elements m l v = Some (l', v') ->
  lhs y l' - v' = lhs x l - v /\ (forall e, In e l' -> (f_var e < length (kept vars n))%nat).
Proof.
  intros Hc. induction l as [|e l IH]; intros v l' v' H; cbn [copy_elements] in H.
  - inversion H; subst. split; [reflexivity|intros e []].
  - destruct (nth_error m (f_var e)) as [mi|] eqn:E; cbn [bind] in H; [|discriminate].
    pose proof (compat_map vars n y x (f_var e) mi Hc (mapping_defined _ _ _ _ E) E) as Hx.
    destruct (fst mi) as [j|].
    + destruct (copy_elements m l v) as [[l1 v1]|] eqn:E1; cbn [bind] in H; [|discriminate].
      inversion H; subst. destruct (IH _ _ _ E1) as [G1 G2]. destruct Hx as [Hx Hj]. split.
      * cbn [lhs fst snd f_factor f_var]. rewrite Hx. lia.
      * intros z [<-|Hz]; [exact Hj|auto].
    + destruct (IH _ _ _ H) as [G1 G2]. split; [|assumption]. cbn [lhs]. rewrite Hx. unfold bz. destruct (snd mi); lia.
Qed.
Lemma copy_elements_defined l : (forall e, In e l -> (f_var e < n)%nat) -> forall v, copy_elements m l v <> None.
Proof.
  induction l as [|e l IH]; intros H v; cbn [copy_elements]; [discriminate|].
  destruct (nth_error m (f_var e)) as [mi|] eqn:E.
  - cbn [bind]. specialize (IH (fun z Hz => H z (or_intror Hz))). destruct (fst mi).
    + specialize (IH v). destruct (copy_elements m l v); [cbn [bind]; discriminate|contradiction].
    + apply IH.
  - apply nth_error_None in E. unfold m in E. rewrite make_mapping_length, seq_length in E.
    specialize (H e (or_introl eq_refl)). lia.
Qed.

Lemma copy_linear_value y x l : compat vars n y x -> forall v l' v',
  copy_linear m l v = Some (l', v') -> lin_value y l' + v' = lin_value x l + v.
Proof.
  intros Hc. induction l as [|e l IH]; intros v l' v' H; cbn [copy_linear] in H.
  - inversion H; subst. reflexivity.
  - destruct (nth_error m (o_var e)) as [mi|] eqn:E; cbn [bind] in H; [|discriminate].
    pose proof (compat_map vars n y x (o_var e) mi Hc (mapping_defined _ _ _ _ E) E) as Hx.
    destruct (fst mi) as [j|].
    + destruct (copy_linear m l v) as [[l1 v1]|] eqn:E1; cbn [bind] in H; [|discriminate].
      inversion H; subst. specialize (IH _ _ _ E1). destruct Hx as [Hx Hj].
      cbn [lin_value fst snd o_factor o_var]. rewrite Hx. lia.
    + specialize (IH _ _ _ H). cbn [lin_value]. rewrite Hx. unfold bz. destruct (snd mi); lia.
Qed.
Lemma copy_linear_defined l : (forall e, In e l -> (o_var e < n)%nat) -> forall v, copy_linear m l v <> None.
Proof.
  induction l as [|e l IH]; intros H v; cbn [copy_linear]; [discriminate|].
  destruct (nth_error m (o_var e)) as [mi|] eqn:E.
  - cbn [bind]. specialize (IH (fun z Hz => H z (or_intror Hz))). destruct (fst mi).
    + specialize (IH v). destruct (copy_linear m l v); [cbn [bind]; discriminate|contradiction].
    + apply IH.
  - apply nth_error_None in E. unfold m in E. rewrite make_mapping_length, seq_length in E.
    specialize (H e (or_introl eq_refl)). lia.
Qed.

(** Constraints kept. *)
Definition copied (c c' : constraint) : Prop :=
  exists r, copy_elements m (c_elements c) (c_value c) = Some r /\
            c' = mk_constraint (c_label c) (fst r) (snd r) (c_id c).
Lemma constraints_copy_spec l : forall cnt l', constraints_exclude_copy m cnt l = Some l' ->
  (forall i c k, nth_error l i = Some c -> nth_error cnt i = Some k -> (2 <= k)%nat ->
     exists c', In c' l' /\ copied c c') /\
  (forall c', In c' l' -> exists i c k, nth_error l i = Some c /\ nth_error cnt i = Some k /\ (2 <= k)%nat /\ copied c c').
Proof.
  induction l as [|c l IH]; intros cnt l' H; cbn [constraints_exclude_copy] in H.
  - inversion H; subst. split; [intros [|i] c k Hc; discriminate|intros c' []].
  - destruct cnt as [|k cnt]; [discriminate|]. destruct (Nat.leb_spec k 1) as [Hk|Hk].
    + destruct (IH _ _ H) as [G1 G2]. split.
      * intros [|i] c1 k1 Hc Hk1 Hle; cbn in Hc, Hk1; [inversion Hk1; subst; lia|eauto].
      * intros c' Hc'. destruct (G2 c' Hc') as (i & c1 & k1 & A & B & C & D). exists (S i), c1, k1. auto.
    + destruct (copy_elements m (c_elements c) (c_value c)) as [r|] eqn:E; cbn [bind] in H; [|discriminate].
      destruct (constraints_exclude_copy m cnt l) as [l1|] eqn:E1; cbn [bind] in H; [|discriminate].
      inversion H; subst. destruct (IH _ _ E1) as [G1 G2]. split.
      * intros [|i] c1 k1 Hc Hk1 Hle; cbn in Hc, Hk1.
        -- inversion Hc; subst. eexists. split; [left; reflexivity|]. exists r. auto.
        -- destruct (G1 i c1 k1 Hc Hk1 Hle) as (c' & A & B). exists c'. split; [right; assumption|assumption].
      * intros c' [<-|Hc'].
        -- exists 0%nat, c, k. cbn. split; [reflexivity|]. split; [reflexivity|]. split; [lia|]. exists r. auto.
        -- destruct (G2 c' Hc') as (i & c1 & k1 & A & B & C & D). exists (S i), c1, k1. auto.
Qed.
Lemma constraints_copy_defined l : forall cnt, length cnt = length l ->
  (forall c e, In c l -> In e (c_elements c) -> (f_var e < n)%nat) -> constraints_exclude_copy m cnt l <> None.
Proof.
  induction l as [|c l IH]; intros cnt Hl H; cbn [constraints_exclude_copy]; [discriminate|].
  destruct cnt as [|k cnt]; [discriminate|]. cbn in Hl.
  specialize (IH cnt ltac:(lia) (fun z e Hz => H z e (or_intror Hz))).
  destruct (Nat.leb k 1); [assumption|].
  pose proof (copy_elements_defined (c_elements c) (fun e => H c e (or_introl eq_refl)) (c_value c)) as Hd.
  destruct (copy_elements m (c_elements c) (c_value c)); [|contradiction]. cbn [bind].
  destruct (constraints_exclude_copy m cnt l); [cbn [bind]; discriminate|contradiction].
Qed.
Lemma copied_csat op y x c c' : compat vars n y x -> copied c c' -> (csat op y c' <-> csat op x c).
Proof.
  intros Hc ([l' v'] & E & ->). destruct (copy_elements_lhs y x (c_elements c) Hc _ _ _ E) as [H _].
  destruct op; cbn [csat c_elements c_value fst snd]; unfold sat_equal, sat_greater, sat_less; cbn [c_elements c_value]; lia.
Qed.
Lemma copied_valid c c' y x : compat vars n y x -> copied c c' ->
  forall e, In e (c_elements c') -> (f_var e < length (kept vars n))%nat.
Proof. intros Hc ([l' v'] & E & ->). exact (proj2 (copy_elements_lhs y x (c_elements c) Hc _ _ _ E)). Qed.

(** Variables. *)
Lemma variables_copy_spec vs is : forall rv ra rv' ra',
  variables_exclude_copy vars vs is rv ra = Some (rv', ra') ->
  exists nms vals anms avals,
    v_names rv' = v_names rv ++ nms /\ v_values rv' = v_values rv ++ vals /\
    a_names ra' = a_names ra ++ anms /\ a_values ra' = a_values ra ++ avals /\
    Forall2 (fun i nm => nth_error (v_names vs) i = Some nm) (filter (free vars) is) nms /\
    Forall2 (fun i v => nth_error (v_values vs) i = Some v) (filter (free vars) is) vals /\
    Forall2 (fun i nm => nth_error (v_names vs) i = Some nm) (filter (fun i => negb (free vars i)) is) anms /\
    Forall2 (fun i b => vfind vars i = Some b) (filter (fun i => negb (free vars i)) is) avals.
Proof.
  induction is as [|i is IH]; intros rv ra rv' ra' H; cbn [variables_exclude_copy] in H.
  - inversion H; subst. exists [], [], [], []. rewrite !app_nil_r. repeat split; constructor.
  - destruct (nth_error (v_names vs) i) as [nm|] eqn:En; cbn [bind] in H; [|discriminate].
    cbn [filter].
    assert (Hfree : free vars i = match vfind vars i with None => true | Some _ => false end) by reflexivity.
    destruct (vfind vars i) as [b|] eqn:E; rewrite Hfree; cbn [negb].
    + destruct (IH _ _ _ _ H) as (nms & vals & anms & avals & H1 & H2 & H3 & H4 & H5 & H6 & H7 & H8).
      cbn [a_names a_values v_names v_values] in *. exists nms, vals, (nm :: anms), (b :: avals).
      rewrite <- app_assoc in H3, H4. cbn [app negb] in *.
      repeat (split; [assumption|]). split; constructor; assumption.
    + destruct (nth_error (v_values vs) i) as [v|] eqn:Ev; cbn [bind] in H; [|discriminate].
      destruct (IH _ _ _ _ H) as (nms & vals & anms & avals & H1 & H2 & H3 & H4 & H5 & H6 & H7 & H8).
      cbn [a_names a_values v_names v_values] in *. exists (nm :: nms), (v :: vals), anms, avals.
      rewrite <- app_assoc in H1, H2. cbn [app negb] in *.
      split; [assumption|]. split; [assumption|]. split; [assumption|]. split; [assumption|].
      split; [constructor; assumption|]. split; [constructor; assumption|]. split; assumption.
Qed.
Lemma variables_copy_defined vs is : forall rv ra,
  (forall i, In i is -> (i < length (v_names vs))%nat /\ (i < length (v_values vs))%nat) ->
  variables_exclude_copy vars vs is rv ra <> None.
Proof.
  induction is as [|i is IH]; intros rv ra H; cbn [variables_exclude_copy]; [discriminate|].
  destruct (H i (or_introl eq_refl)) as [Hn Hv].
  destruct (nth_error (v_names vs) i) eqn:En; [|apply nth_error_None in En; lia]. cbn [bind].
  destruct (vfind vars i); [apply IH; auto using in_cons|].
  destruct (nth_error (v_values vs) i) eqn:Ev; [|apply nth_error_None in Ev; lia]. cbn [bind].
  apply IH; auto using in_cons.
Qed.
End Copy.

Lemma Forall2_nth {A B} (R : A -> B -> Prop) a b : Forall2 R a b ->
  forall i x, nth_error a i = Some x -> exists y, nth_error b i = Some y /\ R x y.
Proof.
  intros H. induction H as [|p q a b Hpq HF IH]; intros [|i] x Hx; cbn in *; try discriminate.
  - inversion Hx; subst. eauto.
  - eauto.
Qed.
Lemma Forall2_nth' {A B} (R : A -> B -> Prop) a b : Forall2 R a b ->
  forall i y, nth_error b i = Some y -> exists x, nth_error a i = Some x /\ R x y.
Proof.
  intros H. induction H as [|p q a b Hpq HF IH]; intros [|i] y Hy; cbn in *; try discriminate.
  - inversion Hy; subst. eauto.
  - eauto.
Qed.

(** What make_problem returns. *)
Record rebuilt (pb : problem) (aff : affected_variables) (mo : merge_obj) (s : pstate) (q : problem) : Prop := {
  rb_obj : objective_function_exclude_copy
             (make_mapping (s_vars s) (seq 0 (length (v_values (p_vars pb)))) 0) (p_objective pb) mo = Some (p_objective q);
  rb_vars : variables_exclude_copy (s_vars s) (p_vars pb) (seq 0 (length (v_values (p_vars pb)))) (mk_variables [] []) aff
             = Some (p_vars q, p_affected q);
  rb_csts : forall op, constraints_exclude_copy
             (make_mapping (s_vars s) (seq 0 (length (v_values (p_vars pb)))) 0) (cnt_of op s) (op_constraints op pb)
             = Some (op_constraints op q);
  rb_type : p_type q = p_type pb;
  rb_class : p_problem_type q = which_problem_type q }.

Lemma which_ignores o e g l vs af t t1 t2 :
  which_problem_type (mk_problem o e g l vs af t t1) = which_problem_type (mk_problem o e g l vs af t t2).
Proof. reflexivity. Qed.

Lemma make_problem_rebuilt pb aff mo s q : make_problem pb aff mo s = Ok q -> rebuilt pb aff mo s q.
Proof.
  unfold make_problem, ensures.
  match goal with |- (if ?b then _ else _) = _ -> _ => destruct b; [|discriminate] end.
  destruct (objective_function_exclude_copy _ _ mo) as [obj|] eqn:Eo; cbn [of_opt obind]; [|discriminate].
  destruct (variables_exclude_copy _ _ _ _ aff) as [[vs af]|] eqn:Ev; cbn [of_opt obind]; [|discriminate].
  match goal with |- (if ?b then _ else _) = _ -> _ => destruct b; [|discriminate] end.
  destruct (constraints_exclude_copy _ (s_equal s) _) as [eq|] eqn:E1; cbn [of_opt obind]; [|discriminate].
  destruct (constraints_exclude_copy _ (s_greater s) _) as [gr|] eqn:E2; cbn [of_opt obind]; [|discriminate].
  destruct (constraints_exclude_copy _ (s_less s) _) as [le|] eqn:E3; cbn [of_opt obind]; [|discriminate].
  match goal with |- (if ?b then _ else _) = _ -> _ => destruct b; [|discriminate] end.
  intros H; inversion H; subst q. constructor; cbn; auto.
  intros op; destruct op; cbn; assumption.
Qed.

Section Rebuilt.
Variables (pb : problem) (aff : affected_variables) (mo : merge_obj) (s : pstate) (q : problem).
Hypothesis R : rebuilt pb aff mo s q.
Let n := length (v_values (p_vars pb)).
Hypothesis Haff : length (a_names aff) = length (a_values aff).

Lemma rb_called i nm : called pb i nm -> (i < n)%nat ->
  match vfind (s_vars s) i with
  | Some b => fixed_to q nm b
  | None => exists j, nth_error (kept (s_vars s) n) j = Some i /\ called q j nm
  end.
Proof.
  intros Hc Hi.
  destruct (variables_copy_spec _ _ _ _ _ _ _ (rb_vars _ _ _ _ _ R)) as (nms & vals & anms & avals & H1 & H2 & H3 & H4 & H5 & H6 & H7 & H8).
  fold n in H5, H6, H7, H8. cbn [v_names v_values app] in H1, H2.
  destruct (vfind (s_vars s) i) as [b|] eqn:E.
  - assert (Hin : In i (filter (fun i => negb (free (s_vars s) i)) (seq 0 n))).
    { apply filter_In. split; [apply in_seq; lia|]. unfold free. rewrite E. reflexivity. }
    apply In_nth_error in Hin. destruct Hin as [k Hk].
    destruct (Forall2_nth _ _ _ H7 k i Hk) as (nm' & Hnm & Hnm'). destruct (Forall2_nth _ _ _ H8 k i Hk) as (b' & Hb & Hb').
    unfold called in Hc. rewrite Hc in Hnm'. inversion Hnm'; subst nm'. rewrite E in Hb'. inversion Hb'; subst b'.
    exists (length (a_names aff) + k)%nat. rewrite H3, H4. split.
    + rewrite nth_error_app2 by lia. replace (length (a_names aff) + k - length (a_names aff))%nat with k by lia. assumption.
    + rewrite nth_error_app2 by lia. rewrite Haff. replace (length (a_values aff) + k - length (a_values aff))%nat with k by lia. assumption.
  - assert (Hin : In i (kept (s_vars s) n)) by (apply kept_in; auto).
    apply In_nth_error in Hin. destruct Hin as [k Hk]. exists k. split; [assumption|].
    destruct (Forall2_nth _ _ _ H5 k i Hk) as (nm' & Hnm & Hnm'). unfold called in *. rewrite Hc in Hnm'. inversion Hnm'; subst nm'.
    rewrite H1. assumption.
Qed.
Lemma rb_called_inv j nm : called q j nm -> exists i, nth_error (kept (s_vars s) n) j = Some i /\ called pb i nm.
Proof.
  destruct (variables_copy_spec _ _ _ _ _ _ _ (rb_vars _ _ _ _ _ R)) as (nms & vals & anms & avals & H1 & H2 & H3 & H4 & H5 & H6 & H7 & H8).
  fold n in H5. cbn [v_names app] in H1. unfold called. rewrite H1. intros Hj.
  exact (Forall2_nth' _ _ _ H5 j nm Hj).
Qed.
Lemma rb_fixed_inv nm b : fixed_to q nm b ->
  (exists i, (i < n)%nat /\ vfind (s_vars s) i = Some b /\ called pb i nm) \/
  (exists k, nth_error (a_names aff) k = Some nm /\ nth_error (a_values aff) k = Some b).
Proof.
  destruct (variables_copy_spec _ _ _ _ _ _ _ (rb_vars _ _ _ _ _ R)) as (nms & vals & anms & avals & H1 & H2 & H3 & H4 & H5 & H6 & H7 & H8).
  fold n in H7, H8. intros (k & Hk & Hb). rewrite H3 in Hk. rewrite H4 in Hb.
  destruct (le_lt_dec (length (a_names aff)) k) as [Hle|Hlt].
  - left. rewrite nth_error_app2 in Hk by assumption. rewrite nth_error_app2 in Hb by lia. rewrite <- Haff in Hb.
    destruct (Forall2_nth' _ _ _ H7 _ _ Hk) as (i & Hi & Hn). destruct (Forall2_nth' _ _ _ H8 _ _ Hb) as (i' & Hi' & Hb').
    rewrite Hi in Hi'. inversion Hi'; subst i'. exists i. split; [|split; assumption].
    apply nth_error_In in Hi. apply filter_In in Hi. destruct Hi as [Hi _]. apply in_seq in Hi. lia.
  - right. exists k. rewrite nth_error_app1 in Hk by assumption. rewrite nth_error_app1 in Hb by lia. auto.
Qed.

Hypothesis Hlen : length (v_names (p_vars pb)) = n.

Lemma completes_compat y x : completes y q x pb -> compat (s_vars s) n y x.
Proof.
  intros H.
  assert (Hname : forall i, (i < n)%nat -> exists nm, called pb i nm).
  { intros i Hi. unfold called. destruct (nth_error (v_names (p_vars pb)) i) eqn:E; [eauto|].
    apply nth_error_None in E. lia. }
  split.
  - intros i b Hi Hb. destruct (Hname i Hi) as [nm Hn]. pose proof (rb_called i nm Hn Hi) as Hc. rewrite Hb in Hc.
    exact (proj2 (H i nm Hn) b Hc).
  - intros j i Hj. assert (Hin : In i (kept (s_vars s) n)) by (eapply nth_error_In; eassumption).
    apply kept_in in Hin. destruct Hin as [Hi Hb]. destruct (Hname i Hi) as [nm Hn].
    pose proof (rb_called i nm Hn Hi) as Hc. rewrite Hb in Hc. destruct Hc as (j' & Hj' & Hc).
    assert (j' = j) as ->.
    { apply (proj1 (NoDup_nth_error (kept (s_vars s) n)) (kept_nodup _ _)); [|congruence].
      apply nth_error_Some. congruence. }
    exact (proj1 (H i nm Hn) j Hc).
Qed.

Hypothesis Hnames : NoDup (v_names (p_vars pb)).
Hypothesis Haffn : forall nm, In nm (a_names aff) -> ~ In nm (v_names (p_vars pb)).

Lemma called_unique i i' nm : called pb i nm -> called pb i' nm -> i = i'.
Proof.
  unfold called. intros H H'. apply (proj1 (NoDup_nth_error _) Hnames); [|congruence].
  apply nth_error_Some. congruence.
Qed.
Lemma called_lt i nm : called pb i nm -> (i < n)%nat.
Proof. unfold called. intros H. rewrite <- Hlen. apply nth_error_Some. congruence. Qed.

Lemma compat_completes y x : compat (s_vars s) n y x -> completes y q x pb.
Proof.
  intros [H1 H2] i nm Hi. split.
  - intros j Hj. destruct (rb_called_inv j nm Hj) as (i' & Hk & Hc). rewrite (called_unique i i' nm Hi Hc). auto.
  - intros b Hb. destruct (rb_fixed_inv nm b Hb) as [(i' & Hlt & Hv & Hc)|(k & Hk & _)].
    + rewrite (called_unique i i' nm Hi Hc). auto.
    + exfalso. apply (Haffn nm); eapply nth_error_In; eassumption.
Qed.

Lemma compat_of_x x : (forall i b, (i < n)%nat -> vfind (s_vars s) i = Some b -> x i = b) ->
  compat (s_vars s) n (fun j => x (nth j (kept (s_vars s) n) 0%nat)) x.
Proof.
  intros H. split; [assumption|]. intros j i Hj. rewrite (nth_error_nth _ _ _ Hj). reflexivity.
Qed.

Lemma bounds_of_compat y x : compat (s_vars s) n y x ->
  (in_bounds y q <-> forall i v, nth_error (v_values (p_vars pb)) i = Some v -> vfind (s_vars s) i = None ->
      v_min v <= bz (x i) <= v_max v).
Proof.
  intros [_ Hc].
  destruct (variables_copy_spec _ _ _ _ _ _ _ (rb_vars _ _ _ _ _ R)) as (nms & vals & anms & avals & H1 & H2 & H3 & H4 & H5 & H6 & H7 & H8).
  fold n in H6. cbn [v_values app] in H2. unfold in_bounds. rewrite H2. split.
  - intros H i v Hv Hf. assert (Hi : (i < n)%nat) by (apply nth_error_Some; unfold n; congruence).
    assert (Hin : In i (kept (s_vars s) n)) by (apply kept_in; auto).
    apply In_nth_error in Hin. destruct Hin as [j Hj]. rewrite (Hc j i Hj).
    destruct (Forall2_nth _ _ _ H6 j i Hj) as (v' & Hv' & Hvv). rewrite Hv in Hvv. inversion Hvv; subst. eauto.
  - intros H j v Hv. destruct (Forall2_nth' _ _ _ H6 j v Hv) as (i & Hi & Hvi).
    change (filter (free (s_vars s)) (seq 0 n)) with (kept (s_vars s) n) in Hi.
    rewrite <- (Hc j i Hi). apply H; [assumption|]. apply nth_error_In in Hi. apply kept_in in Hi. tauto.
Qed.

Lemma linear_objective_value y x : linear_objective pb -> mo = mk_merge_obj [] 0 -> compat (s_vars s) n y x ->
  objective_value y (p_objective q) = objective_value x (p_objective pb) /\ linear_objective q.
Proof.
  intros Hl Hmo Hc. pose proof (rb_obj _ _ _ _ _ R) as Ho. unfold objective_function_exclude_copy in Ho.
  unfold linear_objective in *. rewrite Hl in Ho. rewrite Hmo in Ho. cbn [mo_value mo_elements] in Ho. fold n in Ho.
  destruct (copy_linear _ _ _) as [[le v]|] eqn:E; cbn [bind copy_quadratic fst snd merge_elements] in Ho; [|discriminate].
  inversion Ho as [Heq]. cbn [o_qelements]. split; [|reflexivity].
  unfold objective_value. cbn [o_value o_elements o_qelements quad_value]. rewrite Hl, app_nil_r. cbn [quad_value].
  pose proof (copy_linear_value _ _ y x _ Hc _ _ _ E). lia.
Qed.
End Rebuilt.
