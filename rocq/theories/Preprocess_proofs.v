(** Proofs about the preprocessor: propagation. *)
From Verif Require Import Base Problem_model Problem_spec Merged_model Merged_spec Merged_proofs Classify_model
  Preprocess_model Preprocess_spec.
Open Scope Z_scope.

(** ** Maps *)
Definition vkeys (m : vmap) : list nat := map fst m.
Lemma vfind_some m v b : vfind m v = Some b -> In (v, b) m.
Proof.
  induction m as [|[u c] m IH]; cbn; [discriminate|].
  destruct (Nat.eqb_spec u v) as [->|]; [intros H; inversion H; subst; left; reflexivity|right; auto].
Qed.
Lemma vfind_none m v : vfind m v = None <-> ~ In v (vkeys m).
Proof.
  induction m as [|[u c] m IH]; cbn; [tauto|].
  destruct (Nat.eqb_spec u v) as [->|Hn].
  - split; [discriminate|]. intros H. exfalso. apply H. left; reflexivity.
  - rewrite IH. intuition.
Qed.
Lemma vfind_in m v b : NoDup (vkeys m) -> In (v, b) m -> vfind m v = Some b.
Proof.
  induction m as [|[u c] m IH]; cbn; intros Hnd Hin; [destruct Hin|].
  inversion Hnd as [|? ? Hnot Hnd']; subst. destruct Hin as [H|Hin].
  - inversion H; subst. rewrite Nat.eqb_refl. reflexivity.
  - destruct (Nat.eqb_spec u v) as [->|Hn]; [|auto].
    exfalso. apply Hnot. apply (in_map fst) in Hin. exact Hin.
Qed.
Lemma vkeys_in m v : In v (vkeys m) <-> exists b, In (v, b) m.
Proof.
  unfold vkeys. rewrite in_map_iff. split.
  - intros ([u b] & <- & H). exists b. exact H.
  - intros (b & H). exists (v, b). split; [reflexivity|exact H].
Qed.
Lemma vfind_app a b v : vfind (a ++ b) v = match vfind a v with Some x => Some x | None => vfind b v end.
Proof. induction a as [|[u c] a IH]; cbn; [reflexivity|]. destruct (Nat.eqb u v); auto. Qed.

(** ** The caches *)
Fixpoint positions (v : nat) (l : list constraint) (i : nat) : list nat :=
  match l with
  | [] => []
  | c :: l' => repeat i (count_occ Nat.eq_dec (map f_var (c_elements c)) v) ++ positions v l' (S i)
  end.
Lemma cache_elems_spec l : forall i cache cache', cache_elems l i cache = Some cache' ->
  length cache' = length cache /\
  forall v, nth_error cache' v =
    option_map (fun k => k ++ repeat i (count_occ Nat.eq_dec (map f_var l) v)) (nth_error cache v).
Proof.
  induction l as [|e l IH]; intros i cache cache' H; cbn [cache_elems] in H.
  - inversion H; subst. split; [reflexivity|]. intros v. cbn. destruct (nth_error cache' v); cbn; [|reflexivity].
    rewrite app_nil_r. reflexivity.
  - destruct (list_modify cache (f_var e) (fun k => k ++ [i])) as [c1|] eqn:E; cbn [bind] in H; [|discriminate].
    destruct (IH _ _ _ H) as [Hl Hn]. split; [rewrite Hl; eapply list_modify_length; eassumption|].
    intros v. rewrite Hn, (list_modify_nth _ _ _ _ v E). cbn [map count_occ].
    destruct (Nat.eqb_spec v (f_var e)) as [->|Hne].
    + destruct (Nat.eq_dec (f_var e) (f_var e)); [|contradiction].
      destruct (nth_error cache (f_var e)); cbn; [|reflexivity]. rewrite <- app_assoc. reflexivity.
    + destruct (Nat.eq_dec (f_var e) v); [congruence|]. reflexivity.
Qed.
Lemma cache_csts_spec l : forall i cache cache', cache_csts l i cache = Some cache' ->
  length cache' = length cache /\
  forall v, nth_error cache' v = option_map (fun k => k ++ positions v l i) (nth_error cache v).
Proof.
  induction l as [|c l IH]; intros i cache cache' H; cbn [cache_csts] in H.
  - inversion H; subst. split; [reflexivity|]. intros v. cbn. destruct (nth_error cache' v); cbn; [|reflexivity].
    rewrite app_nil_r. reflexivity.
  - destruct (cache_elems (c_elements c) i cache) as [c1|] eqn:E; cbn [bind] in H; [|discriminate].
    destruct (cache_elems_spec _ _ _ _ E) as [Hl1 Hn1]. destruct (IH _ _ _ H) as [Hl Hn].
    split; [congruence|]. intros v. rewrite Hn, Hn1. cbn [positions].
    destruct (nth_error cache v); cbn; [|reflexivity]. rewrite <- app_assoc. reflexivity.
Qed.
Lemma make_cache_spec n l cache : make_cache n l = Some cache ->
  length cache = n /\ forall v, (v < n)%nat -> nth_error cache v = Some (positions v l 0).
Proof.
  intros H. destruct (cache_csts_spec _ _ _ _ H) as [Hl Hn]. rewrite repeat_length in Hl.
  split; [assumption|]. intros v Hv. rewrite Hn, nth_error_repeat.
  destruct (Nat.ltb_spec v n); [reflexivity|lia].
Qed.
Lemma cache_elems_defined l : forall i cache, (forall e, In e l -> (f_var e < length cache)%nat) ->
  exists cache', cache_elems l i cache = Some cache'.
Proof.
  induction l as [|e l IH]; intros i cache H; cbn [cache_elems]; [eauto|].
  destruct (list_modify_some cache (f_var e) (fun k => k ++ [i]) (H e (or_introl eq_refl))) as (a & c1 & _ & _ & E).
  rewrite E. cbn [bind]. apply IH. intros z Hz. rewrite (list_modify_length _ _ _ _ E). apply H; right; assumption.
Qed.
Lemma cache_csts_defined l : forall i cache,
  (forall c e, In c l -> In e (c_elements c) -> (f_var e < length cache)%nat) ->
  exists cache', cache_csts l i cache = Some cache'.
Proof.
  induction l as [|c l IH]; intros i cache H; cbn [cache_csts]; [eauto|].
  destruct (cache_elems_defined (c_elements c) i cache) as [c1 E].
  { intros e He. apply (H c e (or_introl eq_refl) He). }
  rewrite E. cbn [bind]. apply IH. intros z e Hz He. destruct (cache_elems_spec _ _ _ _ E) as [-> _].
  apply (H z e (or_intror Hz) He).
Qed.

Definition mentions (v : nat) (c : constraint) : Prop := In v (map f_var (c_elements c)).
Lemma positions_in v l : forall i j, In j (positions v l i) <->
  (i <= j)%nat /\ exists c, nth_error l (j - i) = Some c /\ mentions v c.
Proof.
  induction l as [|c l IH]; intros i j; cbn [positions].
  - split; [intros []|]. intros [_ (c & H & _)]. destruct (j - i)%nat; discriminate.
  - rewrite in_app_iff, IH. split.
    + intros [H|(Hle & c' & Hc & Hm)].
      * pose proof (repeat_spec _ _ _ H) as ->. split; [lia|]. rewrite Nat.sub_diag. exists c. split; [reflexivity|].
        unfold mentions. apply (count_occ_In Nat.eq_dec).
        destruct (count_occ Nat.eq_dec (map f_var (c_elements c)) v); [destruct H|lia].
      * split; [lia|]. exists c'. split; [|assumption]. replace (j - i)%nat with (S (j - S i)) by lia. exact Hc.
    + intros (Hle & c' & Hc & Hm). destruct (Nat.eq_dec i j) as [->|Hne].
      * left. rewrite Nat.sub_diag in Hc. inversion Hc; subst c'.
        apply (count_occ_In Nat.eq_dec) in Hm.
        destruct (count_occ Nat.eq_dec (map f_var (c_elements c)) v); [lia|]. left; reflexivity.
      * right. split; [lia|]. exists c'. split; [|assumption].
        replace (j - i)%nat with (S (j - S i)) in Hc by lia. exact Hc.
Qed.
Lemma NoDup_app' {A} (a b : list A) : NoDup a -> NoDup b -> (forall x, In x a -> ~ In x b) -> NoDup (a ++ b).
Proof.
  induction a as [|x a IH]; cbn; intros Ha Hb H; [assumption|].
  inversion Ha; subst. constructor.
  - rewrite in_app_iff. intros [Hx|Hx]; [contradiction|]. apply (H x); auto.
  - apply IH; auto.
Qed.
Lemma positions_nodup v l : (forall c, In c l -> NoDup (map f_var (c_elements c))) ->
  forall i, NoDup (positions v l i).
Proof.
  induction l as [|c l IH]; intros H i; cbn [positions]; [constructor|].
  apply NoDup_app'.
  - assert (Hc : (count_occ Nat.eq_dec (map f_var (c_elements c)) v <= 1)%nat).
    { apply (NoDup_count_occ Nat.eq_dec). apply H; left; reflexivity. }
    destruct (count_occ Nat.eq_dec (map f_var (c_elements c)) v) as [|[|k]]; cbn; [constructor| |lia].
    constructor; [intros []|constructor].
  - apply IH. intros z Hz; apply H; right; assumption.
  - intros x Hx Hx'. pose proof (repeat_spec _ _ _ Hx) as ->. apply positions_in in Hx'. lia.
Qed.

(** ** Unaffected variables of a constraint *)
Definition is_free (vars : vmap) (e : felem) : bool :=
  match vfind vars (f_var e) with None => true | Some _ => false end.
Definition unaff (vars : vmap) (l : list felem) : nat := length (filter (is_free vars) l).
Lemma unaff_nil l : unaff [] l = length l.
Proof. unfold unaff. induction l as [|e l IH]; cbn; [reflexivity|]. f_equal. exact IH. Qed.

Lemma unaff_add vars v b l :
  NoDup (map f_var l) -> ~ In v (vkeys vars) ->
  unaff vars l = (unaff (vars ++ [(v, b)]) l + if in_dec Nat.eq_dec v (map f_var l) then 1 else 0)%nat.
Proof.
  intros Hnd Hv. apply vfind_none in Hv. unfold unaff. induction l as [|e l IH]; [reflexivity|].
  cbn [map] in Hnd. inversion Hnd as [|? ? Hnot Hnd']; subst. specialize (IH Hnd').
  cbn [filter map].
  assert (He : is_free (vars ++ [(v, b)]) e = if Nat.eqb v (f_var e) then false else is_free vars e).
  { unfold is_free. rewrite vfind_app. cbn. destruct (Nat.eqb_spec v (f_var e)) as [<-|].
    - rewrite Hv. reflexivity.
    - destruct (vfind vars (f_var e)); reflexivity. }
  rewrite He. destruct (Nat.eqb_spec v (f_var e)) as [Heq|Hne].
  - subst v. assert (Hf : is_free vars e = true) by (unfold is_free; rewrite Hv; reflexivity). rewrite Hf.
    cbn [length]. rewrite IH.
    destruct (in_dec Nat.eq_dec (f_var e) (map f_var l)); [contradiction|].
    destruct (in_dec Nat.eq_dec (f_var e) (f_var e :: map f_var l)) as [|Hn]; [lia|]. exfalso. apply Hn. left; reflexivity.
  - destruct (in_dec Nat.eq_dec v (f_var e :: map f_var l)) as [[Hc|Hin]|Hn].
    + congruence.
    + destruct (in_dec Nat.eq_dec v (map f_var l)); [|contradiction].
      destruct (is_free vars e); cbn [length]; lia.
    + destruct (in_dec Nat.eq_dec v (map f_var l)) as [Hin|]; [exfalso; apply Hn; right; assumption|].
      destruct (is_free vars e); cbn [length]; lia.
Qed.

(** ** reduce *)
Definition agrees (x : assignment) (m : vmap) : Prop := forall v b, In (v, b) m -> x v = b.
Definition rem_value (x : assignment) (r : option felem) : Z :=
  match r with None => 0 | Some e => f_factor e * bz (x (f_var e)) end.
Definition rem_count (r : option felem) : nat := match r with None => 0 | Some _ => 1 end.

Lemma reduce_loop_spec vars l : forall res rem, (unaff vars l + rem_count rem <= 1)%nat ->
  exists rem' res', reduce_loop vars l res rem = Ok (rem', res') /\
    (forall x, agrees x vars -> lhs x l + rem_value x rem - res = rem_value x rem' - res') /\
    (forall e, rem' = Some e -> rem = Some e \/ (In e l /\ vfind vars (f_var e) = None)).
Proof.
  induction l as [|e l IH]; intros res rem Hc; cbn [reduce_loop].
  - exists rem, res. split; [reflexivity|]. split; [intros x _; cbn; lia|auto].
  - unfold unaff in Hc. cbn [filter] in Hc. unfold is_free in Hc at 1.
    destruct (vfind vars (f_var e)) as [b|] eqn:E.
    + fold (unaff vars l) in Hc. destruct (IH (res + -1 * (f_factor e * if b then 1 else 0)) rem Hc) as (rem' & res' & H1 & H2 & H3).
      exists rem', res'. split; [assumption|]. split.
      * intros x Hx. specialize (H2 x Hx). cbn [lhs].
        rewrite (Hx _ _ (vfind_some _ _ _ E)). unfold bz at 1. destruct b; lia.
      * intros z Hz. destruct (H3 z Hz) as [H|[H H']]; [auto|]. right; split; [right; assumption|assumption].
    + cbn [length] in Hc. fold (unaff vars l) in Hc. destruct rem as [e0|]; [cbn in Hc; lia|].
      destruct (IH res (Some e) ltac:(cbn in *; lia)) as (rem' & res' & H1 & H2 & H3).
      exists rem', res'. split; [assumption|]. split.
      * intros x Hx. specialize (H2 x Hx). cbn [lhs rem_value] in *. lia.
      * intros z Hz. destruct (H3 z Hz) as [H|[H H']].
        -- inversion H; subst. right; split; [left; reflexivity|assumption].
        -- right; split; [right; assumption|assumption].
Qed.

Lemma csat_compare op x c r a :
  lhs x (c_elements c) - c_value c = a - r ->
  csat op x c <-> compare_op op a r = true.
Proof.
  intros H. destruct op; cbn [csat compare_op]; unfold sat_equal, sat_greater, sat_less.
  - rewrite Z.eqb_eq. lia.
  - rewrite Z.geb_le. lia.
  - rewrite Z.leb_le. lia.
Qed.

(** ** Propagation *)
Section Propagation.
Variable pb : problem.
Let n := length (v_values (p_vars pb)).
Hypothesis Hidx : forall c e, In c (all_constraints pb) -> In e (c_elements c) -> (f_var e < n)%nat.
Hypothesis Hnd : forall c, In c (all_constraints pb) -> NoDup (map f_var (c_elements c)).
(** The solutions of interest, of which there is one. *)
Variable Sol : assignment -> Prop.
Variable x0 : assignment.
Hypothesis Hx0 : Sol x0.
Hypothesis HSol : forall x, Sol x -> feasible x pb.

Definition forced (v : nat) (b : bool) : Prop := forall x, Sol x -> x v = b.

Lemma sol_csat x op c : Sol x -> In c (op_constraints op pb) -> csat op x c.
Proof. intros Hx. exact (proj1 (feasible_ops x pb) (HSol x Hx) op c). Qed.

Definition known (vars : vmap) (lf : lifo) : Prop :=
  (forall v b, In (v, b) vars \/ In (v, b) lf -> forced v b /\ (v < n)%nat) /\
  NoDup (vkeys vars) /\ NoDup (vkeys lf) /\ (forall v, In v (vkeys vars) -> ~ In v (vkeys lf)).
Definition agree2 (x : assignment) (vars : vmap) (lf : lifo) : Prop :=
  forall v b, In (v, b) vars \/ In (v, b) lf -> x v = b.

Lemma forced_unique v b b' : forced v b -> forced v b' -> b = b'.
Proof. intros H H'. rewrite <- (H x0 Hx0). apply H'. assumption. Qed.

Lemma reduce_constraint_ok op c vars :
  In c (op_constraints op pb) -> (unaff vars (c_elements c) <= 1)%nat ->
  (forall v b, In (v, b) vars -> forced v b) ->
  exists r, reduce_constraint op vars c = Ok r /\
    match r with
    | None => forall x, agrees x vars -> csat op x c
    | Some (u, b) => forced u b /\ vfind vars u = None /\ (u < n)%nat /\
                     forall x, agrees x vars -> x u = b -> csat op x c
    end.
Proof.
  intros Hc Hu Hf.
  assert (Hag : forall x, Sol x -> agrees x vars) by (intros x Hx v b Hin; exact (Hf v b Hin x Hx)).
  unfold reduce_constraint, reduce.
  destruct (reduce_loop_spec vars (c_elements c) (c_value c) None ltac:(cbn; lia)) as (rem & res & Hr & Hl & He).
  rewrite Hr. cbn [obind].
  assert (Hcmp : forall x, agrees x vars -> (csat op x c <-> compare_op op (rem_value x rem) res = true)).
  { intros x Hx. apply csat_compare. specialize (Hl x Hx). change (rem_value x None) with 0 in Hl. lia. }
  destruct rem as [e|].
  - destruct (He e eq_refl) as [H|[Hin Hnone]]; [discriminate|].
    assert (Hlt : (f_var e < n)%nat).
    { apply (Hidx c e); [|assumption]. eapply op_constraints_in; eassumption. }
    assert (Hb : forall x, agrees x vars ->
       (csat op x c <-> compare_op op (f_factor e * (if x (f_var e) then 1 else 0)) res = true)).
    { intros x Hx. rewrite (Hcmp x Hx). cbn [rem_value]. unfold bz. reflexivity. }
    destruct (compare_op op (f_factor e * 0) res) eqn:E0; destruct (compare_op op (f_factor e * 1) res) eqn:E1; cbn [andb].
    + eexists. split; [reflexivity|]. cbn. intros x Hx. apply Hb; [assumption|]. destruct (x (f_var e)); assumption.
    + eexists. split; [reflexivity|]. cbn. split; [|split; [assumption|split; [assumption|]]].
      * intros x Hx. pose proof (proj1 (Hb x (Hag x Hx)) (sol_csat x op c Hx Hc)) as H.
        destruct (x (f_var e)); [congruence|reflexivity].
      * intros x Hx Hxe. apply Hb; [assumption|]. rewrite Hxe. assumption.
    + eexists. split; [reflexivity|]. cbn. split; [|split; [assumption|split; [assumption|]]].
      * intros x Hx. pose proof (proj1 (Hb x (Hag x Hx)) (sol_csat x op c Hx Hc)) as H.
        destruct (x (f_var e)); [reflexivity|congruence].
      * intros x Hx Hxe. apply Hb; [assumption|]. rewrite Hxe. assumption.
    + exfalso. pose proof (proj1 (Hb x0 (Hag x0 Hx0)) (sol_csat x0 op c Hx0 Hc)) as H.
      destruct (x0 (f_var e)); congruence.
  - eexists. split; [reflexivity|]. cbn. intros x Hx. apply Hcmp; [assumption|].
    pose proof (proj1 (Hcmp x0 (Hag x0 Hx0)) (sol_csat x0 op c Hx0 Hc)) as H. exact H.
Qed.

Lemma lifo_emplace_ok vars lf u b :
  known vars lf -> forced u b -> (u < n)%nat -> vfind vars u = None ->
  known vars (lifo_emplace lf u b) /\ In (u, b) (lifo_emplace lf u b) /\ incl lf (lifo_emplace lf u b).
Proof.
  intros (H1 & H2 & H3 & H4) Hf Hu Hn. unfold lifo_emplace. destruct (vfind lf u) as [b'|] eqn:E.
  - apply vfind_some in E. split; [repeat split; try assumption; apply (H1 v b0); assumption|].
    assert (b' = b) as -> by (apply (forced_unique u); [apply H1; right; assumption|assumption]).
    split; [assumption|apply incl_refl].
  - split; [|split; [left; reflexivity|apply incl_tl, incl_refl]].
    split; [|split; [assumption|split]].
    + intros v c [H|[H|H]]; [apply H1; auto| |apply H1; auto]. inversion H; subst. auto.
    + cbn. constructor; [|assumption]. apply vfind_none. assumption.
    + intros v Hv [H|H]; [cbn in H; subst v|apply (H4 v); assumption]. apply vfind_none in Hn. contradiction.
Qed.

Definition cok (op : operator_type) (vars : vmap) (lf : lifo) (pend : list nat) (cnt : list nat) : Prop :=
  length cnt = length (op_constraints op pb) /\
  forall i c k, nth_error (op_constraints op pb) i = Some c -> nth_error cnt i = Some k ->
    k <> 1%nat /\
    ((0 < k)%nat -> k = (unaff vars (c_elements c) + if in_dec Nat.eq_dec i pend then 1 else 0)%nat) /\
    (k = 0%nat -> forall x, agree2 x vars lf -> csat op x c).

Lemma agree2_incl x vars lf lf' : incl lf lf' -> agree2 x vars lf' -> agree2 x vars lf.
Proof. intros Hi H v b [Hv|Hv]; apply H; auto. Qed.
Lemma cok_incl op vars lf lf' pend cnt : incl lf lf' -> cok op vars lf pend cnt -> cok op vars lf' pend cnt.
Proof.
  intros Hi [Hl H]. split; [assumption|]. intros i c k Hc Hk. destruct (H i c k Hc Hk) as (H1 & H2 & H3).
  split; [assumption|]. split; [assumption|]. intros H0 x Hx. apply (H3 H0). eapply agree2_incl; eassumption.
Qed.

Lemma in_dec_cons_ne i j l : i <> j ->
  (if in_dec Nat.eq_dec i (j :: l) then 1%nat else 0%nat) = (if in_dec Nat.eq_dec i l then 1%nat else 0%nat).
Proof.
  intros Hne. destruct (in_dec Nat.eq_dec i (j :: l)) as [[H|H]|H], (in_dec Nat.eq_dec i l) as [H'|H']; try reflexivity.
  - congruence.
  - contradiction.
  - exfalso. apply H. right; assumption.
Qed.
Lemma in_dec_cons_eq i l : (if in_dec Nat.eq_dec i (i :: l) then 1%nat else 0%nat) = 1%nat.
Proof. destruct (in_dec Nat.eq_dec i (i :: l)) as [|H]; [reflexivity|]. exfalso. apply H. left; reflexivity. Qed.
Lemma in_dec_not i l : ~ In i l -> (if in_dec Nat.eq_dec i l then 1%nat else 0%nat) = 0%nat.
Proof. intros H. destruct (in_dec Nat.eq_dec i l); [contradiction|reflexivity]. Qed.

Lemma affect_csts_ok op vars idx : forall cnt lf,
  NoDup idx -> (forall i, In i idx -> (i < length (op_constraints op pb))%nat) ->
  known vars lf -> cok op vars lf idx cnt ->
  exists cnt' lf', affect_csts op (op_constraints op pb) vars idx cnt lf = Ok (cnt', lf') /\
    known vars lf' /\ cok op vars lf' [] cnt' /\ incl lf lf'.
Proof.
  induction idx as [|i idx IH]; intros cnt lf Hndi Hi Hk Hc; cbn [affect_csts].
  - exists cnt, lf. split; [reflexivity|]. split; [assumption|]. split; [assumption|apply incl_refl].
  - inversion Hndi as [|? ? Hnot Hndi']; subst.
    assert (Hi' : forall j, In j idx -> (j < length (op_constraints op pb))%nat) by (intros j Hj; apply Hi; right; assumption).
    destruct Hc as [Hlen Hc].
    destruct (nth_error (op_constraints op pb) i) as [c|] eqn:Ec.
    2:{ apply nth_error_None in Ec. specialize (Hi i (or_introl eq_refl)). lia. }
    destruct (nth_error cnt i) as [k|] eqn:Ek.
    2:{ apply nth_error_None in Ek. specialize (Hi i (or_introl eq_refl)). lia. }
    cbn [of_opt obind].
    destruct (Hc i c k Ec Ek) as (Hk1 & Hk2 & Hk3). rewrite in_dec_cons_eq in Hk2.
    (* the invariant for the other positions *)
    assert (Hoth : forall cnt' lf' k', length cnt' = length cnt ->
              (forall j, j <> i -> nth_error cnt' j = nth_error cnt j) -> nth_error cnt' i = Some k' ->
              incl lf lf' -> k' <> 1%nat ->
              ((0 < k')%nat -> k' = unaff vars (c_elements c)) ->
              (k' = 0%nat -> forall x, agree2 x vars lf' -> csat op x c) ->
              cok op vars lf' idx cnt').
    { intros cnt' lf' k' Hl' Hne Hi'' Hinc Ha Hb Hd. split; [congruence|].
      intros j c' kj Hcj Hkj. destruct (Nat.eq_dec j i) as [Heq|Hji].
      - subst j. rewrite Ec in Hcj. inversion Hcj; subst c'. rewrite Hi'' in Hkj. inversion Hkj; subst kj.
        split; [assumption|]. split; [|assumption]. intros Hpos. rewrite (in_dec_not i idx Hnot). rewrite (Hb Hpos) at 1. lia.
      - rewrite (Hne j Hji) in Hkj. destruct (Hc j c' kj Hcj Hkj) as (G1 & G2 & G3).
        split; [assumption|]. split.
        + intros Hpos. rewrite <- (in_dec_cons_ne j i idx Hji). apply G2. assumption.
        + intros H0 x Hx. apply (G3 H0). eapply agree2_incl; eassumption. }
    destruct (Nat.eqb_spec k 0) as [->|Hk0].
    + destruct (IH cnt lf Hndi' Hi' Hk) as (cnt' & lf' & H1 & H2 & H3 & H4).
      { apply (Hoth cnt lf 0%nat); auto; [apply incl_refl|lia]. }
      exists cnt', lf'. auto.
    + specialize (Hk2 ltac:(lia)).
      destruct (list_upd_some cnt i 0%nat ltac:(rewrite Hlen; apply Hi; left; reflexivity)) as [cnt0 E0].
      destruct (list_upd_some cnt i (Nat.pred k) ltac:(rewrite Hlen; apply Hi; left; reflexivity)) as [cnt1 E1].
      rewrite E0, E1. cbn [of_opt obind].
      assert (Hupd : forall z cz, list_upd cnt i z = Some cz ->
                length cz = length cnt /\ (forall j, j <> i -> nth_error cz j = nth_error cnt j) /\ nth_error cz i = Some z).
      { intros z cz E. split; [eapply list_upd_length; eassumption|]. split.
        - intros j Hj. rewrite (list_upd_nth _ _ _ _ j E). destruct (Nat.eqb_spec j i); [contradiction|reflexivity].
        - rewrite (list_upd_nth _ _ _ _ i E), Nat.eqb_refl. reflexivity. }
      destruct (Nat.eqb_spec (Nat.pred k) 1) as [Hp|Hp].
      * destruct (Hupd _ _ E0) as (U1 & U2 & U3).
        destruct (reduce_constraint_ok op c vars) as (r & Hr & Hrs).
        { eapply nth_error_In; eassumption. }
        { lia. }
        { intros v b Hin. apply (proj1 Hk v b). left; assumption. }
        rewrite Hr. cbn [obind].
        assert (Hlf : exists lf1, lifo_emplace_opt lf r = lf1 /\ known vars lf1 /\ incl lf lf1 /\
                      forall x, agree2 x vars lf1 -> csat op x c).
        { destruct r as [[u b]|]; cbn [lifo_emplace_opt].
          - destruct Hrs as (Hf & Hn & Hlt & Hsat).
            destruct (lifo_emplace_ok vars lf u b Hk Hf Hlt Hn) as (L1 & L2 & L3).
            eexists. split; [reflexivity|]. split; [assumption|]. split; [assumption|].
            intros x Hx. apply Hsat; [|apply Hx; right; assumption]. intros v d Hv. apply Hx. left; assumption.
          - eexists. split; [reflexivity|]. split; [assumption|]. split; [apply incl_refl|].
            intros x Hx. apply Hrs. intros v d Hv. apply Hx. left; assumption. }
        destruct Hlf as (lf1 & -> & Hk' & Hinc & Hsat).
        destruct (IH cnt0 lf1 Hndi' Hi' Hk') as (cnt' & lf' & H1 & H2 & H3 & H4).
        { apply (Hoth cnt0 lf1 0%nat); auto; lia. }
        exists cnt', lf'. split; [assumption|]. split; [assumption|]. split; [assumption|].
        eapply incl_tran; eassumption.
      * destruct (Hupd _ _ E1) as (U1 & U2 & U3).
        destruct (IH cnt1 lf Hndi' Hi' Hk) as (cnt' & lf' & H1 & H2 & H3 & H4).
        { apply (Hoth cnt1 lf (Nat.pred k)); auto; [apply incl_refl|lia|lia]. }
        exists cnt', lf'. auto.
Qed.

Variable ch : caches.
Hypothesis Hch : make_caches pb = Some ch.

Definition cache_of (op : operator_type) : list (list nat) :=
  match op with op_equal => in_equal ch | op_greater => in_greater ch | op_less => in_less ch end.
Lemma cache_of_spec op : length (cache_of op) = n /\
  forall v, (v < n)%nat -> nth_error (cache_of op) v = Some (positions v (op_constraints op pb) 0).
Proof.
  unfold make_caches in Hch. fold n in Hch.
  destruct (make_cache n (p_equal pb)) as [e|] eqn:Ee; cbn [bind] in Hch; [|discriminate].
  destruct (make_cache n (p_greater pb)) as [g|] eqn:Eg; cbn [bind] in Hch; [|discriminate].
  destruct (make_cache n (p_less pb)) as [l|] eqn:El; cbn [bind] in Hch; [|discriminate].
  assert (Hc : ch = mk_caches e g l) by congruence. unfold cache_of. rewrite Hc.
  destruct op; cbn [in_equal in_greater in_less op_constraints]; apply make_cache_spec; assumption.
Qed.

Definition cnt_of (op : operator_type) (s : pstate) : list nat :=
  match op with op_equal => s_equal s | op_greater => s_greater s | op_less => s_less s end.
Definition Inv (s : pstate) : Prop :=
  known (s_vars s) (s_lifo s) /\ forall op, cok op (s_vars s) (s_lifo s) [] (cnt_of op s).

Lemma cok_pop op vars lf v b cnt :
  ~ In v (vkeys vars) -> cok op vars ((v, b) :: lf) [] cnt ->
  cok op (vars ++ [(v, b)]) lf (positions v (op_constraints op pb) 0) cnt.
Proof.
  intros Hv [Hl H]. split; [assumption|]. intros i c k Hc Hk. destruct (H i c k Hc Hk) as (H1 & H2 & H3).
  split; [assumption|]. split.
  - intros Hpos. rewrite (H2 Hpos). rewrite (in_dec_not i [] (fun f => f)). 
    rewrite (unaff_add vars v b (c_elements c)).
    2:{ apply Hnd. eapply op_constraints_in. eapply nth_error_In; eassumption. }
    2:{ assumption. }
    assert (Heq : In i (positions v (op_constraints op pb) 0) <-> In v (map f_var (c_elements c))).
    { rewrite positions_in, Nat.sub_0_r. split.
      - intros (_ & c' & Hc' & Hm). rewrite Hc in Hc'. inversion Hc'; subst. exact Hm.
      - intros Hm. split; [lia|]. exists c. split; [assumption|exact Hm]. }
    destruct (in_dec Nat.eq_dec v (map f_var (c_elements c))) as [Hm|Hm],
      (in_dec Nat.eq_dec i (positions v (op_constraints op pb) 0)) as [Hp|Hp]; try lia.
    + exfalso. apply Hp. apply Heq. assumption.
    + exfalso. apply Hm. apply Heq. assumption.
  - intros H0 x Hx. apply (H3 H0). intros u d [Hu|[Hu|Hu]].
    + apply Hx. left. apply in_or_app. left; assumption.
    + apply Hx. left. apply in_or_app. right. left; assumption.
    + apply Hx. right; assumption.
Qed.

Lemma known_pop vars lf v b : known vars ((v, b) :: lf) -> known (vars ++ [(v, b)]) lf.
Proof.
  intros (H1 & H2 & H3 & H4). cbn in H3. inversion H3 as [|? ? Hnot H3']; subst.
  split; [|split; [|split; [assumption|]]].
  - intros u d [Hu|Hu].
    + apply in_app_or in Hu. destruct Hu as [Hu|[Hu|[]]]; apply H1; [left; assumption|right; left; assumption].
    + apply H1. right; right; assumption.
  - unfold vkeys. rewrite map_app. cbn. apply NoDup_app_one; [assumption|].
    intros H. apply (H4 v); [exact H|left; reflexivity].
  - intros u Hu Hu'. unfold vkeys in Hu. rewrite map_app, in_app_iff in Hu. destruct Hu as [Hu|[Hu|[]]].
    + apply (H4 u); [exact Hu|right; exact Hu'].
    + cbn in Hu. subst u. contradiction.
Qed.

Lemma vemplace_fresh vars v b : ~ In v (vkeys vars) -> vemplace vars v b = vars ++ [(v, b)].
Proof. intros H. unfold vemplace. apply vfind_none in H. rewrite H. reflexivity. Qed.

Lemma positions_lt op v i : In i (positions v (op_constraints op pb) 0) -> (i < length (op_constraints op pb))%nat.
Proof.
  intros H. apply positions_in in H. destruct H as (_ & c & Hc & _). rewrite Nat.sub_0_r in Hc.
  apply nth_error_Some. congruence.
Qed.
Lemma positions_nd op v : NoDup (positions v (op_constraints op pb) 0).
Proof. apply positions_nodup. intros c Hc. apply Hnd. eapply op_constraints_in; eassumption. Qed.

Lemma affect_step_ok s v b lf :
  Inv s -> s_lifo s = (v, b) :: lf ->
  exists s', affect_step pb ch s v b lf = Ok s' /\ Inv s' /\ s_vars s' = s_vars s ++ [(v, b)].
Proof.
  intros [Hk Hc] Hlf. rewrite Hlf in *.
  assert (Hv : ~ In v (vkeys (s_vars s))).
  { intros H. apply (proj2 (proj2 (proj2 Hk)) v H). left; reflexivity. }
  assert (Hvn : (v < n)%nat) by (apply (proj1 Hk v b); right; left; reflexivity).
  unfold affect_step. rewrite (vemplace_fresh _ _ _ Hv).
  pose proof (known_pop _ _ _ _ Hk) as K0.
  pose proof (cok_pop _ _ _ _ _ _ Hv (Hc op_equal)) as Ce.
  pose proof (cok_pop _ _ _ _ _ _ Hv (Hc op_greater)) as Cg.
  pose proof (cok_pop _ _ _ _ _ _ Hv (Hc op_less)) as Cl.
  pose proof (proj2 (cache_of_spec op_equal) v Hvn) as Pe.
  pose proof (proj2 (cache_of_spec op_greater) v Hvn) as Pg.
  pose proof (proj2 (cache_of_spec op_less) v Hvn) as Pl.
  cbn [cache_of cnt_of op_constraints] in *.
  rewrite Pe, Pg, Pl. cbn [of_opt obind].
  destruct (affect_csts_ok op_equal _ _ _ _ (positions_nd op_equal v) (positions_lt op_equal v) K0 Ce)
    as (eq & lf1 & E1 & K1 & C1 & I1).
  cbn [op_constraints] in E1. rewrite E1. cbn [obind].
  destruct (affect_csts_ok op_greater _ _ (s_greater s) lf1 (positions_nd op_greater v) (positions_lt op_greater v) K1)
    as (gr & lf2 & E2 & K2 & C2 & I2).
  { eapply cok_incl; eassumption. }
  cbn [op_constraints] in E2. rewrite E2. cbn [obind].
  destruct (affect_csts_ok op_less _ _ (s_less s) lf2 (positions_nd op_less v) (positions_lt op_less v) K2)
    as (le & lf3 & E3 & K3 & C3 & I3).
  { eapply cok_incl; [|eassumption]. eapply incl_tran; eassumption. }
  cbn [op_constraints] in E3. rewrite E3. cbn [obind].
  eexists. split; [reflexivity|]. split; [|reflexivity].
  split; [exact K3|]. intros op. destruct op; cbn [cnt_of s_vars s_lifo s_equal s_greater s_less].
  - eapply cok_incl; [|exact C1]. eapply incl_tran; eassumption.
  - eapply cok_incl; [|exact C2]. assumption.
  - exact C3.
Qed.

Lemma known_length vars lf : known vars lf -> (length vars <= n)%nat.
Proof.
  intros (H1 & H2 & _). rewrite <- (map_length fst vars). fold (vkeys vars).
  rewrite <- (seq_length n 0). apply NoDup_incl_length; [assumption|].
  intros v Hv. apply vkeys_in in Hv. destruct Hv as [b Hb]. apply in_seq.
  destruct (H1 v b (or_introl Hb)). lia.
Qed.

Lemma affects_ok fuel : forall s, Inv s -> (n < fuel + length (s_vars s))%nat ->
  exists s', affects fuel pb ch s = Ok (Some s') /\ Inv s' /\ s_lifo s' = [] /\ incl (s_vars s) (s_vars s') /\
             incl (s_lifo s) (s_vars s').
Proof.
  induction fuel as [|fuel IH]; intros s Hi Hf.
  - pose proof (known_length _ _ (proj1 Hi)). lia.
  - cbn [affects]. destruct (s_lifo s) as [|[v b] lf] eqn:E.
    + exists s. split; [reflexivity|]. split; [assumption|]. split; [assumption|].
      split; [apply incl_refl|intros z []].
    + destruct (affect_step_ok s v b lf Hi E) as (s1 & Es & Hi1 & Hv1). rewrite Es. cbn [obind].
      destruct (IH s1 Hi1) as (s2 & H1 & H2 & H3 & H4 & H5).
      { rewrite Hv1, app_length. cbn. lia. }
      exists s2. split; [assumption|]. split; [assumption|]. split; [assumption|].
      rewrite Hv1 in H4. split.
      * intros z Hz. apply H4. apply in_or_app. left; assumption.
      * intros z [Hz|Hz]; [apply H4; apply in_or_app; right; left; assumption|].
        apply H5. clear - Es Hz Hi E.
        unfold affect_step in Es.
        destruct (nth_error (in_equal ch) v); cbn [of_opt obind] in Es; [|discriminate].
        destruct (affect_csts op_equal _ _ _ _ _) as [[e1 w1]| |] eqn:A1; cbn [obind] in Es; try discriminate.
        destruct (nth_error (in_greater ch) v); cbn [of_opt obind] in Es; [|discriminate].
        destruct (affect_csts op_greater _ _ _ _ _) as [[e2 w2]| |] eqn:A2; cbn [obind] in Es; try discriminate.
        destruct (nth_error (in_less ch) v); cbn [of_opt obind] in Es; [|discriminate].
        destruct (affect_csts op_less _ _ _ _ _) as [[e3 w3]| |] eqn:A3; cbn [obind] in Es; try discriminate.
        inversion Es; subst s1. cbn [s_lifo].
        assert (Hinc : forall op csts vars idx cnt lf cnt' lf', affect_csts op csts vars idx cnt lf = Ok (cnt', lf') -> incl lf lf').
        { clear. intros op csts vars idx. induction idx as [|i idx IH]; intros cnt lf cnt' lf' H; cbn [affect_csts] in H.
          - inversion H; subst; apply incl_refl.
          - destruct (nth_error cnt i) as [k|]; cbn [of_opt obind] in H; [|discriminate].
            destruct (Nat.eqb k 0); [eauto|]. destruct (Nat.eqb (Nat.pred k) 1).
            + destruct (nth_error csts i) as [c|]; cbn [of_opt obind] in H; [|discriminate].
              destruct (reduce_constraint op vars c) as [r| |]; cbn [obind] in H; try discriminate.
              destruct (list_upd cnt i 0%nat); cbn [of_opt obind] in H; [|discriminate].
              eapply incl_tran; [|eapply IH; eassumption].
              destruct r as [[u d]|]; cbn; [|apply incl_refl].
              unfold lifo_emplace. destruct (vfind lf u); [apply incl_refl|apply incl_tl, incl_refl].
            + destruct (list_upd cnt i (Nat.pred k)); cbn [of_opt obind] in H; [|discriminate]. eauto. }
        exact (Hinc _ _ _ _ _ _ _ _ A3 _ (Hinc _ _ _ _ _ _ _ _ A2 _ (Hinc _ _ _ _ _ _ _ _ A1 _ Hz))).
Qed.

(** ** Initialisation *)
Lemma emplace_all_ok l b : forall lf,
  known [] lf -> (forall e, In e l -> forced (f_var e) b /\ (f_var e < n)%nat) ->
  known [] (emplace_all l b lf) /\ incl lf (emplace_all l b lf) /\
  (forall e, In e l -> In (f_var e, b) (emplace_all l b lf)).
Proof.
  unfold emplace_all. induction l as [|e l IH]; intros lf Hk Hl; cbn [fold_left].
  - split; [assumption|]. split; [apply incl_refl|intros e []].
  - destruct (Hl e (or_introl eq_refl)) as [Hf Hlt].
    destruct (lifo_emplace_ok [] lf (f_var e) b Hk Hf Hlt eq_refl) as (K & I & Inc).
    destruct (IH _ K (fun z Hz => Hl z (or_intror Hz))) as (K' & Inc' & I').
    split; [assumption|]. split; [eapply incl_tran; eassumption|].
    intros z [<-|Hz]; [apply Inc'; assumption|auto].
Qed.

Lemma all_pos_spec c : is_all_factor_ge_than_zero c = true ->
  forall e, In e (c_elements c) -> 0 < f_factor e.
Proof.
  unfold is_all_factor_ge_than_zero. rewrite forallb_forall. intros H e He. specialize (H e He).
  destruct (Z.leb_spec (f_factor e) 0); [discriminate|assumption].
Qed.
Lemma sum_factor_lhs c : sum_factor c = lhs (fun _ => true) (c_elements c).
Proof.
  unfold sum_factor. generalize (c_elements c). intros l.
  assert (H : forall a, fold_left (fun init e => init + f_factor e) l a = a + lhs (fun _ => true) l).
  { induction l as [|e l IH]; intros a; cbn [fold_left lhs]; [lia|]. rewrite IH. cbn. lia. }
  rewrite H. lia.
Qed.
Lemma lhs_pos_bounds x l : (forall e, In e l -> 0 < f_factor e) ->
  0 <= lhs x l <= lhs (fun _ => true) l.
Proof.
  induction l as [|e l IH]; intros H; cbn [lhs]; [lia|].
  specialize (IH ltac:(intros z Hz; apply H; right; assumption)).
  specialize (H e (or_introl eq_refl)). unfold bz. destruct (x (f_var e)); lia.
Qed.
Lemma lhs_pos_max x l : (forall e, In e l -> 0 < f_factor e) -> lhs (fun _ => true) l <= lhs x l ->
  forall e, In e l -> x (f_var e) = true.
Proof.
  induction l as [|e l IH]; intros H Hl z Hz; [destruct Hz|].
  pose proof (lhs_pos_bounds x l ltac:(intros u Hu; apply H; right; assumption)) as Hb.
  pose proof (H e (or_introl eq_refl)) as He. cbn [lhs] in Hl. unfold bz in Hl.
  destruct Hz as [<-|Hz].
  - destruct (x (f_var e)); [reflexivity|]. lia.
  - apply IH; [intros u Hu; apply H; right; assumption| |assumption]. destruct (x (f_var e)); lia.
Qed.
Lemma lhs_pos_min x l : (forall e, In e l -> 0 < f_factor e) -> lhs x l <= 0 ->
  forall e, In e l -> x (f_var e) = false.
Proof.
  induction l as [|e l IH]; intros H Hl z Hz; [destruct Hz|].
  pose proof (lhs_pos_bounds x l ltac:(intros u Hu; apply H; right; assumption)) as Hb.
  pose proof (H e (or_introl eq_refl)) as He. cbn [lhs] in Hl. unfold bz in Hl.
  destruct Hz as [<-|Hz].
  - destruct (x (f_var e)); [|reflexivity]. lia.
  - apply IH; [intros u Hu; apply H; right; assumption| |assumption]. destruct (x (f_var e)); lia.
Qed.
Lemma lhs_const x b l : (forall e, In e l -> x (f_var e) = b) -> lhs x l = bz b * lhs (fun _ => true) l.
Proof.
  induction l as [|e l IH]; intros H; cbn [lhs]; [lia|].
  rewrite IH by (intros z Hz; apply H; right; assumption).
  rewrite (H e (or_introl eq_refl)). unfold bz. destruct b; lia.
Qed.

Lemma affect_unit_ok op c lf :
  In c (op_constraints op pb) -> known [] lf ->
  exists k' lf', affect_unit op [] c (length (c_elements c)) lf = Ok (k', lf') /\ known [] lf' /\ incl lf lf' /\
    k' <> 1%nat /\ ((0 < k')%nat -> k' = unaff [] (c_elements c)) /\
    (k' = 0%nat -> forall x, agree2 x [] lf' -> csat op x c).
Proof.
  intros Hc Hk. unfold affect_unit.
  assert (Hlt : forall e, In e (c_elements c) -> (f_var e < n)%nat).
  { intros e He. apply (Hidx c e); [|assumption]. eapply op_constraints_in; eassumption. }
  destruct (Nat.eqb_spec (length (c_elements c)) 1) as [H1|H1].
  { destruct (reduce_constraint_ok op c [] Hc) as (r & Hr & Hrs).
    { rewrite unaff_nil. lia. }
    { intros v b []. }
    rewrite Hr. cbn [obind]. eexists 0%nat, _. split; [reflexivity|].
    destruct r as [[u b]|]; cbn [lifo_emplace_opt].
    - destruct Hrs as (Hf & Hn & Hu & Hs). destruct (lifo_emplace_ok [] lf u b Hk Hf Hu Hn) as (L1 & L2 & L3).
      split; [assumption|]. split; [assumption|]. split; [lia|]. split; [lia|].
      intros _ x Hx. apply Hs; [intros v d []|]. apply Hx. right; assumption.
    - split; [assumption|]. split; [apply incl_refl|]. split; [lia|]. split; [lia|].
      intros _ x Hx. apply Hrs. intros v d []. }
  assert (Hkeep : exists k' lf', Ok (length (c_elements c), lf) = Ok (k', lf') /\ known [] lf' /\ incl lf lf' /\
    k' <> 1%nat /\ ((0 < k')%nat -> k' = unaff [] (c_elements c)) /\
    (k' = 0%nat -> forall x, agree2 x [] lf' -> csat op x c)).
  { eexists _, _. split; [reflexivity|]. split; [assumption|]. split; [apply incl_refl|]. split; [assumption|].
    split; [rewrite unaff_nil; reflexivity|]. intros H0 x _. pose proof (sol_csat x0 op c Hx0 Hc) as Hs.
    destruct (c_elements c) eqn:El; [|discriminate].
    destruct op; cbn [csat] in *; unfold sat_equal, sat_greater, sat_less in *; rewrite El in *; exact Hs. }
  destruct (is_all_factor_ge_than_zero c) eqn:Ep; [|exact Hkeep].
  pose proof (all_pos_spec c Ep) as Hpos.
  assert (Hall : forall b, (forall x, Sol x -> forall e, In e (c_elements c) -> x (f_var e) = b) ->
     (forall x, (forall e, In e (c_elements c) -> x (f_var e) = b) -> csat op x c) ->
     exists k' lf', Ok (0%nat, emplace_all (c_elements c) b lf) = Ok (k', lf') /\ known [] lf' /\ incl lf lf' /\
      k' <> 1%nat /\ ((0 < k')%nat -> k' = unaff [] (c_elements c)) /\
      (k' = 0%nat -> forall x, agree2 x [] lf' -> csat op x c)).
  { intros b Hfb Hsb. eexists _, _. split; [reflexivity|].
    destruct (emplace_all_ok (c_elements c) b lf Hk) as (K & Inc & I).
    { intros e He. split; [intros x Hx; exact (Hfb x Hx e He)|auto]. }
    split; [assumption|]. split; [assumption|]. split; [lia|]. split; [lia|].
    intros _ x Hx. apply Hsb. intros e He. apply Hx. right. apply I. assumption. }
  assert (Htriv : (forall x, csat op x c) -> exists k' lf', Ok (0%nat, lf) = Ok (k', lf') /\ known [] lf' /\ incl lf lf' /\
      k' <> 1%nat /\ ((0 < k')%nat -> k' = unaff [] (c_elements c)) /\
      (k' = 0%nat -> forall x, agree2 x [] lf' -> csat op x c)).
  { intros Hs. eexists _, _. split; [reflexivity|]. split; [assumption|]. split; [apply incl_refl|].
    split; [lia|]. split; [lia|]. auto. }
  pose proof (sum_factor_lhs c) as Hsum.
  assert (HS : forall x, Sol x -> csat op x c) by (intros x Hx; apply sol_csat; assumption).
  assert (Hb : forall x, 0 <= lhs x (c_elements c) <= sum_factor c).
  { intros x. rewrite Hsum. apply lhs_pos_bounds. assumption. }
  destruct op; cbn [csat] in *; unfold sat_equal, sat_greater, sat_less in *.
  - destruct (Z.eqb_spec (sum_factor c) (c_value c)) as [Es|Es]; cbn [orb].
    + destruct (Z.eqb_spec (c_value c) 0) as [E0|E0]; cbn [negb].
      * apply Hall.
        -- intros x Hx. apply lhs_pos_min; [assumption|]. rewrite (HS x Hx). lia.
        -- intros x Hx. rewrite (lhs_const x false _ Hx). cbn. lia.
      * apply Hall.
        -- intros x Hx. apply lhs_pos_max; [assumption|]. rewrite (HS x Hx). lia.
        -- intros x Hx. rewrite (lhs_const x true _ Hx). cbn [bz]. lia.
    + destruct (Z.eqb_spec (c_value c) 0) as [E0|E0]; cbn [negb]; [|exact Hkeep].
      apply Hall.
      * intros x Hx. apply lhs_pos_min; [assumption|]. rewrite (HS x Hx). lia.
      * intros x Hx. rewrite (lhs_const x false _ Hx). cbn. lia.
  - destruct (Z.eqb_spec (sum_factor c) (c_value c)) as [Es|Es].
    + apply Hall.
      * intros x Hx. apply lhs_pos_max; [assumption|]. specialize (HS x Hx). lia.
      * intros x Hx. rewrite (lhs_const x true _ Hx). cbn [bz]. lia.
    + destruct (Z.eqb_spec (c_value c) 0) as [E0|E0]; [|exact Hkeep].
      apply Htriv. intros x. specialize (Hb x). lia.
  - destruct (Z.leb_spec (c_value c) 0) as [E0|E0].
    + apply Hall.
      * intros x Hx. apply lhs_pos_min; [assumption|]. specialize (HS x Hx). lia.
      * intros x Hx. rewrite (lhs_const x false _ Hx). cbn [bz].
        pose proof (HS x0 Hx0). specialize (Hb x0). lia.
    + destruct (Z.eqb_spec (sum_factor c) (c_value c)) as [Es|Es]; [|exact Hkeep].
      apply Htriv. intros x. specialize (Hb x). lia.
Qed.

Lemma affect_units_ok op csts : forall lf,
  (forall c, In c csts -> In c (op_constraints op pb)) -> known [] lf ->
  exists cnt lf', affect_units op [] csts (lengths csts) lf = Ok (cnt, lf') /\ known [] lf' /\ incl lf lf' /\
    length cnt = length csts /\
    forall i c k, nth_error csts i = Some c -> nth_error cnt i = Some k ->
      k <> 1%nat /\ ((0 < k)%nat -> k = unaff [] (c_elements c)) /\
      (k = 0%nat -> forall x, agree2 x [] lf' -> csat op x c).
Proof.
  induction csts as [|c csts IH]; intros lf Hin Hk; cbn [affect_units lengths map].
  - eexists _, _. split; [reflexivity|]. split; [assumption|]. split; [apply incl_refl|].
    split; [reflexivity|]. intros [|i] c k H; discriminate.
  - destruct (affect_unit_ok op c lf (Hin c (or_introl eq_refl)) Hk) as (k' & lf1 & E & K1 & I1 & Hk1 & Hk2 & Hk3).
    rewrite E. cbn [obind].
    destruct (IH lf1 (fun z Hz => Hin z (or_intror Hz)) K1) as (cnt & lf2 & E2 & K2 & I2 & L2 & H2).
    unfold lengths in E2. rewrite E2. cbn [obind].
    eexists _, _. split; [reflexivity|]. split; [assumption|]. split; [eapply incl_tran; eassumption|].
    split; [cbn; congruence|]. intros [|i] c' k Hc Hkk; cbn in Hc, Hkk.
    + inversion Hc; inversion Hkk; subst. split; [assumption|]. split; [assumption|].
      intros H0 x Hx. apply (Hk3 H0). eapply agree2_incl; eassumption.
    + eauto.
Qed.

Lemma units_cok op cnt lf :
  length cnt = length (op_constraints op pb) ->
  (forall i c k, nth_error (op_constraints op pb) i = Some c -> nth_error cnt i = Some k ->
      k <> 1%nat /\ ((0 < k)%nat -> k = unaff [] (c_elements c)) /\
      (k = 0%nat -> forall x, agree2 x [] lf -> csat op x c)) ->
  cok op [] lf [] cnt.
Proof.
  intros Hl H. split; [assumption|]. intros i c k Hc Hk. destruct (H i c k Hc Hk) as (H1 & H2 & H3).
  split; [assumption|]. split; [|assumption]. intros Hp. rewrite (in_dec_not i [] (fun f => f)).
  rewrite (H2 Hp) at 1. lia.
Qed.

Lemma try_affect_variable_ok lf :
  known [] lf ->
  exists s, try_affect_variable pb (mk_pstate [] lf (lengths (p_equal pb)) (lengths (p_greater pb)) (lengths (p_less pb))) = Ok s
    /\ Inv s /\ s_vars s = [] /\ incl lf (s_lifo s).
Proof.
  intros Hk. unfold try_affect_variable. cbn [s_vars s_lifo s_equal s_greater s_less].
  destruct (affect_units_ok op_equal (p_equal pb) lf (fun c H => H) Hk) as (e & lf1 & E1 & K1 & I1 & L1 & H1).
  rewrite E1. cbn [obind].
  destruct (affect_units_ok op_greater (p_greater pb) lf1 (fun c H => H) K1) as (g & lf2 & E2 & K2 & I2 & L2 & H2).
  rewrite E2. cbn [obind].
  destruct (affect_units_ok op_less (p_less pb) lf2 (fun c H => H) K2) as (l & lf3 & E3 & K3 & I3 & L3 & H3).
  rewrite E3. cbn [obind].
  eexists. split; [reflexivity|]. split; [|split; [reflexivity|]].
  - split; [exact K3|]. intros op; destruct op; cbn [cnt_of s_vars s_lifo s_equal s_greater s_less].
    + eapply cok_incl; [|apply (units_cok op_equal e lf1); assumption]. eapply incl_tran; eassumption.
    + eapply cok_incl; [|apply (units_cok op_greater g lf2); assumption]. assumption.
    + apply units_cok; assumption.
  - cbn. eapply incl_tran; [eassumption|]. eapply incl_tran; eassumption.
Qed.
End Propagation.
