From Coq Require Import Permutation Sorted.
From Verif Require Import Base Problem_model Merged_spec Rows_model Solver_spec Subsolver_model Subsolver_spec Subsolver_proofs
  BranchBound_model BranchBound_spec.
Open Scope Z_scope.

Section BB.
Context {F : Type} (fo : fops F) (init_z : F) (mode : objective_type).
Hypothesis (Hw : weak_order (fl_lt fo)).
Notation better := (better fo mode).

(** ** Values of choices over the sorted items *)
Fixpoint fval (items : list (rc F)) (y : list bool) : Z :=
  match items, y with
  | r :: l, b :: y' => (if b then bb_factor r else 0) + fval l y'
  | _, _ => 0
  end.
Definition val (items : list (rc F)) (y : list bool) : F :=
  match items, y with
  | r :: l, b :: y' => sum_costs fo (chosen l y') (if b then rc_value r else fl_of_Z fo 0)
  | _, _ => fl_of_Z fo 0
  end.
Definition false_from (v : list bool) (i : nat) : Prop := forall j b, (i <= j)%nat -> nth_error v j = Some b -> b = false.

Lemma chosen_false {A} (l : list A) y : false_from y 0 -> chosen l y = [].
Proof.
  revert y; induction l as [|r l IH]; intros [|b y] H; cbn; try reflexivity.
  rewrite (H 0%nat b (Nat.le_refl 0) eq_refl). apply IH. intros j c Hj. apply (H (S j) c). lia.
Qed.

Lemma chosen_upd {A} : forall (l : list A) y i it y', nth_error l i = Some it -> false_from y i ->
  list_upd y i true = Some y' -> chosen l y' = chosen l y ++ [it].
Proof.
  induction l as [|r l IH]; intros [|b y] [|i] it y' Hit Hf Hu; cbn [nth_error list_upd] in *; try discriminate.
  - inversion Hit; subst. inversion Hu; subst. cbn. pose proof (Hf 0%nat b (Nat.le_refl 0) eq_refl). subst b.
    rewrite chosen_false; [reflexivity|]. intros j c Hj. apply (Hf (S j) c). lia.
  - destruct (list_upd y i true) as [t|] eqn:E; cbn in Hu; [|discriminate]. inversion Hu; subst. cbn [chosen].
    rewrite (IH y i it t Hit); [destruct b; reflexivity| |assumption].
    intros j c Hj. apply (Hf (S j) c). lia.
Qed.

Lemma sum_costs_app l k z : sum_costs fo (l ++ k) z = sum_costs fo k (sum_costs fo l z).
Proof. revert z; induction l as [|r l IH]; intros z; cbn; [reflexivity|]. apply IH. Qed.

Lemma val_upd items y i it y' : (0 < i)%nat -> nth_error items i = Some it -> false_from y i ->
  list_upd y i true = Some y' -> val items y' = fl_add fo (val items y) (rc_value it).
Proof.
  intros Hi Hit Hf Hu. destruct i as [|i]; [lia|]. destruct items as [|r l]; [discriminate|].
  destruct y as [|b y]; [discriminate|]. cbn [nth_error list_upd] in *.
  destruct (list_upd y i true) as [t|] eqn:E; cbn in Hu; [|discriminate]. inversion Hu; subst. cbn [val].
  rewrite (chosen_upd l y i it t Hit); [|intros j c Hj; apply (Hf (S j) c); lia|assumption].
  rewrite sum_costs_app. reflexivity.
Qed.

Lemma fval_upd items y i it y' : nth_error items i = Some it -> nth_error y i = Some false ->
  list_upd y i true = Some y' -> fval items y' = fval items y + bb_factor it.
Proof.
  revert y i y'; induction items as [|r l IH]; intros [|b y] [|i] y' Hit Hy Hu; cbn [nth_error list_upd] in *; try discriminate.
  - inversion Hit; subst. inversion Hu; subst. inversion Hy; subst. cbn. lia.
  - destruct (list_upd y i true) as [t|] eqn:E; cbn in Hu; [|discriminate]. inversion Hu; subst. cbn [fval].
    rewrite (IH y i t Hit Hy E). lia.
Qed.

Lemma fval_false items y : false_from y 0 -> fval items y = 0.
Proof.
  revert y; induction items as [|r l IH]; intros [|b y] H; cbn; try reflexivity.
  rewrite (H 0%nat b (Nat.le_refl 0) eq_refl). rewrite IH; [reflexivity|]. intros j c Hj. apply (H (S j) c). lia.
Qed.

Lemma fval_mono items v y : length v = length y ->
  (forall j, nth_error v j = Some true -> nth_error y j = Some true) -> fval items v <= fval items y.
Proof.
  revert v y; induction items as [|r l IH]; intros [|b v] [|c y] HL H; cbn [fval length] in *; try lia.
  assert (fval l v <= fval l y) by (apply IH; [lia|]; intros j Hj; exact (H (S j) Hj)).
  unfold bb_factor. destruct b; [|destruct c; lia].
  pose proof (H 0%nat eq_refl) as Hc0. cbn in Hc0. inversion Hc0; subst. lia.
Qed.

Lemma fval_strict items v y j : length v = length y -> length v = length items ->
  (forall r, In r items -> rc_f r <> 0) ->
  (forall j, nth_error v j = Some true -> nth_error y j = Some true) ->
  nth_error y j = Some true -> nth_error v j = Some false -> fval items v < fval items y.
Proof.
  revert v y j; induction items as [|r l IH]; intros [|b v] [|c y] j HL HI Hnz H Hy Hv; cbn [fval length] in *; try lia; try (destruct j; discriminate).
  assert (Hl : fval l v <= fval l y) by (apply fval_mono; [lia|]; intros i Hi; exact (H (S i) Hi)).
  destruct j as [|j]; cbn in Hy, Hv.
  - inversion Hy; inversion Hv; subst. pose proof (Hnz r (or_introl eq_refl)). unfold bb_factor. lia.
  - assert (fval l v < fval l y).
    { apply (IH v y j); try lia; try assumption; [intros; apply Hnz; right; assumption|]. intros i Hi. exact (H (S i) Hi). }
    unfold bb_factor. destruct b; [|destruct c; lia].
    pose proof (H 0%nat eq_refl) as Hc0. cbn in Hc0. inversion Hc0; subst. lia.
Qed.

(** ** The exploration *)
Section Explore.
Context (items : list (rc F)) (b_min b_max : Z) (equality : bool).
Hypothesis (Hnz : forall r, In r items -> rc_f r <> 0)
  (Heq : equality = true -> b_min = b_max)
  (Hfin : forall y, length y = length items -> better (val items y) init_z = true).
Notation n := (length items).
Definition fits (y : list bool) : Prop := length y = n /\ b_min <= fval items y <= b_max.
Definition node_ok (nd : @node F) : Prop :=
  length (nd_variables nd) = n /\ (nd_level nd < n)%nat /\ false_from (nd_variables nd) (S (nd_level nd)) /\
  nd_sumr nd = val items (nd_variables nd) /\ nd_sumfactor nd = fval items (nd_variables nd).
Definition pending (y : list bool) (nodes : list (@node F)) : Prop :=
  exists nd, In nd nodes /\ (forall j, (j <= nd_level nd)%nat -> nth_error y j = nth_error (nd_variables nd) j) /\
    exists j, (nd_level nd < j)%nat /\ nth_error y j = Some true.
(** a 1 after the first position *)
Definition late (y : list bool) : Prop := exists j, (0 < j)%nat /\ nth_error y j = Some true.
Definition bb_inv (s : @bb F) : Prop :=
  (forall nd, In nd (bb_nodes s) -> node_ok nd) /\
  (bb_lower s = init_z \/ (fits (bb_solution s) /\ bb_lower s = val items (bb_solution s))) /\
  (forall y, fits y -> late y -> pending y (bb_nodes s) \/ (fits (bb_solution s) /\ bb_lower s = val items (bb_solution s) /\ better (val items y) (bb_lower s) = false)) /\
  (forall y, fits y -> ~ late y -> fits (bb_solution s)) /\
  length (bb_solution s) = n.

Lemma pending_cons y nd nodes : pending y nodes -> pending y (nd :: nodes).
Proof. intros (a & Ha & H). exists a. split; [right; assumption|assumption]. Qed.

Lemma make_next_inv s nd nodes : bb_inv s -> bb_nodes s = nd :: nodes ->
  exists s', make_next fo equality mode items b_min b_max s = Some s' /\ bb_inv s' /\
    ((S (nd_level nd) = n /\ bb_nodes s' = nodes) \/
     (S (nd_level nd) < n)%nat /\ (exists a, nd_level a = S (nd_level nd) /\ (bb_nodes s' = a :: nodes \/ exists b, nd_level b = S (nd_level nd) /\ bb_nodes s' = b :: a :: nodes))).
Proof.
  intros (Hok & Hlow & Hall & Hearly & Hsl) E. unfold make_next. rewrite E.
  destruct (Hok nd) as (Hlv & Hlev & Hff & Hsr & Hsf); [rewrite E; left; reflexivity|].
  destruct (Nat.leb_spec (length items) (S (nd_level nd))) as [Hle|Hlt].
  { eexists. split; [reflexivity|]. split; [|left; cbn; split; [lia|reflexivity]].
    split; [|split; [|split; [|split]]]; cbn [bb_nodes bb_solution bb_lower]; try assumption.
    - intros a Ha. apply Hok. rewrite E. right. assumption.
    - intros y Hy Hl. destruct (Hall y Hy Hl) as [(a & Ha & Hagree & j & Hj1 & Hj2)|H]; [|right; assumption].
      rewrite E in Ha. destruct Ha as [<-|Ha]; [|left; exists a; eauto].
      exfalso. assert (j < length y)%nat by (apply nth_error_Some; congruence). destruct Hy as [Hy _]. lia. }
  set (L := S (nd_level nd)) in *.
  destruct (nth_error items L) as [it|] eqn:Hit; [|apply nth_error_None in Hit; lia]. cbn [bind].
  destruct (list_upd_some (nd_variables nd) L true) as [v1 Hv1]; [lia|]. rewrite Hv1. cbn [bind].
  destruct (nth_error (nd_variables nd) L) as [b|] eqn:Hb; [|apply nth_error_None in Hb; lia]. cbn [bind].
  pose proof (Hff L b (Nat.le_refl _) Hb) as ->. cbn [negb]. rewrite Hv1. cbn [bind nd_sumr nd_sumfactor].
  pose proof (list_upd_length _ _ _ _ Hv1) as HLv1.
  assert (Hval : val items v1 = fl_add fo (nd_sumr nd) (rc_value it)).
  { rewrite Hsr. apply (val_upd items (nd_variables nd) L it v1); try assumption. subst L. lia. }
  assert (Hfv : fval items v1 = nd_sumfactor nd + bb_factor it).
  { rewrite Hsf. apply (fval_upd items (nd_variables nd) L it v1); assumption. }
  rewrite <- Hval, <- Hfv.
  set (node_0 := mk_node (nd_variables nd) (nd_sumr nd) (nd_sumfactor nd) L).
  set (node_1 := mk_node v1 (val items v1) (fval items v1) L).
  assert (Hn0 : node_ok node_0).
  { split; [assumption|]. split; [cbn; lia|]. split; [|split; assumption].
    intros j c Hj. apply Hff. cbn in Hj. lia. }
  assert (Hn1 : node_ok node_1).
  { split; [cbn; lia|]. split; [cbn; lia|]. split; [|split; reflexivity].
    intros j c Hj. cbn in Hj |- *. rewrite (list_upd_nth _ _ _ _ j Hv1). destruct (Nat.eqb_spec j L); [lia|]. apply Hff. lia. }
  (* what happens to a pending y *)
  assert (Hpend : forall y, fits y -> pending y (nd :: nodes) ->
            pending y (node_0 :: nodes) \/ y = v1 \/
            ((forall j, nth_error v1 j = Some true -> nth_error y j = Some true) /\
             (exists j, nth_error y j = Some true /\ nth_error v1 j = Some false) /\ pending y [node_1])).
  { intros y Hy (a & Ha & Hagree & j & Hj1 & Hj2). destruct Ha as [<-|Ha]; [|left; exists a; split; [right; assumption|eauto]].
    destruct Hy as [HyL _].
    destruct (nth_error y L) as [c|] eqn:Hc; [|apply nth_error_None in Hc; lia].
    destruct c.
    - right.
      assert (Hag1 : forall i, (i <= L)%nat -> nth_error y i = nth_error v1 i).
      { intros i Hi. rewrite (list_upd_nth _ _ _ _ i Hv1). destruct (Nat.eqb_spec i L) as [->|]; [assumption|]. apply Hagree. lia. }
      assert (Hv1f : forall i, (L < i)%nat -> (i < n)%nat -> nth_error v1 i = Some false).
      { intros i Hi Hin. rewrite (list_upd_nth _ _ _ _ i Hv1). destruct (Nat.eqb_spec i L); [lia|].
        destruct (nth_error (nd_variables nd) i) as [d|] eqn:Ed; [|apply nth_error_None in Ed; lia].
        rewrite (Hff i d); [reflexivity|lia|assumption]. }
      assert (Hdec : (exists i, (L < i)%nat /\ nth_error y i = Some true) \/ (forall i, (L < i)%nat -> nth_error y i = Some true -> False)).
      { generalize L. clear. induction y as [|d y IH]; intros L.
        - right. intros [|i] _ H; discriminate.
        - destruct L as [|L].
          + destruct (existsb (fun x => x) y) eqn:Ex.
            * left. apply existsb_exists in Ex. destruct Ex as (x & Hx & ->). apply In_nth_error in Hx. destruct Hx as [i Hi].
              exists (S i). split; [lia|assumption].
            * right. intros [|i] Hi H; [lia|]. cbn in H. apply nth_error_In in H.
              assert (existsb (fun x => x) y = true) by (apply existsb_exists; eauto). congruence.
          + destruct (IH L) as [(i & Hi & Hi2)|H].
            * left. exists (S i). split; [lia|assumption].
            * right. intros [|i] Hi Hi2; [lia|]. apply (H i); [lia|assumption]. }
      destruct Hdec as [(i & Hi & Hi2)|Hno].
      + right. split; [|split].
        * intros k Hk. destruct (le_lt_dec k L) as [Hkl|Hkl]; [rewrite Hag1; assumption|].
          assert (k < length v1)%nat by (apply nth_error_Some; congruence). rewrite Hv1f in Hk; [discriminate|assumption|lia].
        * exists i. split; [assumption|]. apply Hv1f; [assumption|].
          assert (i < length y)%nat by (apply nth_error_Some; congruence). lia.
        * exists node_1. split; [left; reflexivity|]. split; [exact Hag1|]. exists i. split; assumption.
      + left. apply nth_error_ext. intros k. destruct (le_lt_dec k L) as [Hkl|Hkl]; [apply Hag1; assumption|].
        destruct (nth_error y k) as [d|] eqn:Ed.
        * destruct d; [exfalso; eauto|]. symmetry. apply Hv1f; [assumption|].
          assert (k < length y)%nat by (apply nth_error_Some; congruence). lia.
        * symmetry. apply nth_error_None. apply nth_error_None in Ed. lia.
    - left. exists node_0. split; [left; reflexivity|]. split.
      + intros i Hi. cbn in Hi |- *. destruct (Nat.eq_dec i L) as [->|]; [congruence|]. apply Hagree. lia.
      + exists j. split; [|assumption]. cbn. destruct (Nat.eq_dec j L) as [->|]; [congruence|]. subst L. lia. }
  (* the invariant when v1 is stored if it is better *)
  set (stored := if better (val items v1) (bb_lower s) then (v1, val items v1) else (bb_solution s, bb_lower s)).
  assert (Hstore : fits v1 ->
     fits (fst stored) /\ snd stored = val items (fst stored) /\ better (val items v1) (snd stored) = false /\
     (forall y, better (val items y) (bb_lower s) = false -> better (val items y) (snd stored) = false)).
  { intros Hf1. destruct (better_weak fo Hw mode) as [B1 [B2 B3]]. unfold stored.
    destruct (better (val items v1) (bb_lower s)) eqn:Eb; cbn [fst snd].
    - split; [assumption|]. split; [reflexivity|]. split; [apply B1|].
      intros y Hy. destruct (better (val items y) (val items v1)) eqn:E2; [|reflexivity].
      rewrite (B2 _ _ _ E2 Eb) in Hy. discriminate.
    - destruct Hlow as [Hlow|[Hf Hv]].
      + exfalso. rewrite Hlow, Hfin in Eb; [discriminate|]. destruct Hf1; assumption.
      + split; [assumption|]. split; [assumption|]. split; [assumption|]. auto. }
  assert (Hsollen : length (fst stored) = n).
  { unfold stored. destruct (better (val items v1) (bb_lower s)); cbn; [lia|assumption]. }
  assert (Hearly' : forall y, fits y -> ~ late y -> fits v1 -> fits (fst stored)).
  { intros y _ _ Hf1. apply Hstore. assumption. }
  assert (Hrest : forall a, In a nodes -> node_ok a) by (intros a Ha; apply Hok; rewrite E; right; assumption).
  rewrite E in Hall.
  (* three outcomes *)
  assert (Hkeep : forall y, fits y -> late y -> y <> v1 ->
            pending y (node_1 :: node_0 :: nodes) \/ (fits (bb_solution s) /\ bb_lower s = val items (bb_solution s) /\ better (val items y) (bb_lower s) = false)).
  { intros y Hy Hl Hne. destruct (Hall y Hy Hl) as [Hp|H]; [|right; assumption]. left.
    destruct (Hpend y Hy Hp) as [Hp0|[->|(_ & _ & Hp1)]]; [apply pending_cons; assumption|congruence|].
    destruct Hp1 as (a & [<-|[]] & H). exists node_1. split; [left; reflexivity|assumption]. }
  assert (Hdrop : (b_max <= fval items v1) -> forall y, fits y -> late y -> y <> v1 ->
            pending y (node_0 :: nodes) \/ (fits (bb_solution s) /\ bb_lower s = val items (bb_solution s) /\ better (val items y) (bb_lower s) = false)).
  { intros Hbm y Hy Hl Hne. destruct (Hall y Hy Hl) as [Hp|H]; [|right; assumption]. left.
    destruct (Hpend y Hy Hp) as [Hp0|[->|(Hm & (i & Hi1 & Hi2) & _)]]; [assumption|congruence|].
    exfalso. destruct Hy as [HyL Hyb].
    assert (fval items v1 < fval items y) by (apply (fval_strict items v1 y i); try assumption; lia). lia. }
  assert (Hin0 : forall a, In a (node_0 :: nodes) -> node_ok a) by (intros a [<-|Ha]; auto).
  assert (Hin1 : forall a, In a (node_1 :: node_0 :: nodes) -> node_ok a) by (intros a [<-|Ha]; auto).
  assert (Hdec : forall y : list bool, y = v1 \/ y <> v1).
  { intros y. destruct (list_eq_dec bool_dec y v1); auto. }
  assert (Hinv1 : fits v1 -> forall ns, (forall a, In a ns -> node_ok a) ->
     (forall y, fits y -> late y -> y <> v1 -> pending y ns \/ (fits (bb_solution s) /\ bb_lower s = val items (bb_solution s) /\ better (val items y) (bb_lower s) = false)) ->
     bb_inv (mk_bb ns (fst stored) (snd stored))).
  { intros Hf1 ns Hns Hy. destruct (Hstore Hf1) as (Ha & Hb' & Hc & Hd).
    split; [exact Hns|]. split; [right; cbn; auto|]. split; [|split; [|exact Hsollen]].
    - intros y Hyf Hl. cbn [bb_nodes bb_solution bb_lower]. destruct (Hdec y) as [->|Hne]; [right; auto|].
      destruct (Hy y Hyf Hl Hne) as [Hp|(_ & _ & Hbet)]; [left; assumption|right; auto].
    - intros y Hyf Hl. cbn. assumption. }
  assert (Hinv2 : ~ fits v1 -> forall ns, (forall a, In a ns -> node_ok a) ->
     (forall y, fits y -> late y -> y <> v1 -> pending y ns \/ (fits (bb_solution s) /\ bb_lower s = val items (bb_solution s) /\ better (val items y) (bb_lower s) = false)) ->
     bb_inv (mk_bb ns (bb_solution s) (bb_lower s))).
  { intros Hf1 ns Hns Hy. split; [exact Hns|]. split; [exact Hlow|]. split; [|split; [exact Hearly|exact Hsl]].
    intros y Hyf Hl. cbn [bb_nodes bb_solution bb_lower]. apply Hy; [assumption|assumption|]. intros ->. contradiction. }
  assert (HLn : (L < n)%nat) by (lia).
  destruct equality.
  - pose proof (Heq eq_refl) as Hbb.
    destruct (Z.eqb_spec (fval items v1) b_min) as [Ef|Ef].
    + eexists. split; [reflexivity|]. split; [|right; split; [assumption|]; exists node_0; cbn; auto].
      apply Hinv1; [split; lia|exact Hin0|]. apply Hdrop. lia.
    + eexists. split; [reflexivity|]. split; [|right; split; [assumption|]; exists node_0; split; [reflexivity|]; right; exists node_1; cbn; auto].
      apply Hinv2; [intros [_ Hf]; lia|exact Hin1|exact Hkeep].
  - destruct ((b_min <=? fval items v1) && (fval items v1 <=? b_max)) eqn:Et.
    + apply andb_true_iff in Et. eexists. split; [reflexivity|]. split; [|right; split; [assumption|]; exists node_0; split; [reflexivity|]; right; exists node_1; cbn; auto].
      apply Hinv1; [split; lia|exact Hin1|exact Hkeep].
    + apply andb_false_iff in Et. destruct (Z.ltb_spec b_max (fval items v1)).
      * eexists. split; [reflexivity|]. split; [|right; split; [assumption|]; exists node_0; cbn; auto].
        apply Hinv2; [intros [_ Hf]; lia|exact Hin0|]. apply Hdrop. lia.
      * eexists. split; [reflexivity|]. split; [|right; split; [assumption|]; exists node_0; split; [reflexivity|]; right; exists node_1; cbn; auto].
        apply Hinv2; [intros [_ Hf]; lia|exact Hin1|exact Hkeep].
Qed.

(** 2^(n - level) - 1 turns for each node *)
Fixpoint turns (nodes : list (@node F)) : nat :=
  match nodes with [] => 0 | nd :: l => (2 ^ (n - nd_level nd) - 1) + turns l end.

Lemma explore_inv : forall fuel s, bb_inv s -> (turns (bb_nodes s) <= fuel)%nat ->
  exists s', explore fo fuel equality mode items b_min b_max s = Some s' /\ bb_inv s' /\ bb_nodes s' = [].
Proof.
  assert (Hpow : forall l, (l < n)%nat -> (2 ^ (n - l) = 2 * 2 ^ (n - S l))%nat).
  { intros l Hl. replace (n - l)%nat with (S (n - S l)) by lia. cbn. lia. }
  assert (Hpos : forall k, (1 <= 2 ^ k)%nat) by (intros k; induction k; cbn; lia).
  induction fuel as [|fuel IH]; intros s Hinv Ht; cbn [explore]; destruct (bb_nodes s) as [|nd nodes] eqn:E.
  - eauto.
  - exfalso. cbn [turns] in Ht. destruct Hinv as (Hok & _). destruct (Hok nd) as (_ & Hl & _); [rewrite E; left; reflexivity|].
    pose proof (Hpow _ Hl). pose proof (Hpos (n - S (nd_level nd))%nat). lia.
  - eauto.
  - destruct (make_next_inv s nd nodes Hinv E) as (s' & -> & Hinv' & Hn). cbn [bind]. apply IH; [assumption|].
    cbn [turns] in Ht. destruct Hinv as (Hok & _). destruct (Hok nd) as (_ & Hl & _); [rewrite E; left; reflexivity|].
    pose proof (Hpow _ Hl) as Hp. pose proof (Hpos (n - S (nd_level nd))%nat) as Hq.
    destruct Hn as [[_ ->]|(_ & a & Ha & [->|(b & Hb & ->)])]; cbn [turns]; rewrite ?Ha, ?Hb; lia.
Qed.

Lemma not_late_cases y : length y = n -> ~ late y -> (1 <= n)%nat ->
  y = repeat false n \/ list_upd (repeat false n) 0 true = Some y.
Proof.
  intros HL Hl Hn. destruct y as [|b y]; [cbn in HL; lia|].
  assert (Hy : y = repeat false (n - 1)).
  { apply nth_error_ext. intros i. rewrite nth_error_repeat. cbn in HL.
    destruct (Nat.ltb_spec i (n - 1)).
    - destruct (nth_error y i) as [c|] eqn:Ec; [|apply nth_error_None in Ec; lia].
      destruct c; [|reflexivity]. exfalso. apply Hl. exists (S i). split; [lia|assumption].
    - apply nth_error_None. lia. }
  clear Hfin Hnz Hl. destruct n as [|m]; [lia|]. cbn [repeat list_upd]. replace (S m - 1)%nat with m in Hy by lia.
  destruct b; [right|left]; rewrite Hy; reflexivity.
Qed.
End Explore.

(** ** solve_equality, solve_inequality *)
Section Init.
Context (items : list (rc F)) (b_min b_max : Z).
Hypothesis (Hnz : forall r, In r items -> rc_f r <> 0)
  (Hfin : forall y, length y = length items -> better (val items y) init_z = true)
  (Hn : (2 <= length items)%nat).
Notation fitn := (fits items b_min b_max).

Definition answer_ok (sol : list bool) : Prop :=
  length sol = length items /\ ((exists y, fitn y) -> fitn sol) /\
  (forall y, fitn y -> late y -> better (val items y) (val items sol) = false).

Lemma init_facts : exists v1 it, init_node_1 items = Some (mk_node v1 (rc_value it) (bb_factor it) 0) /\
  list_upd (repeat false (length items)) 0 true = Some v1 /\
  node_ok items (mk_node v1 (rc_value it) (bb_factor it) 0) /\ node_ok items (init_node_0 fo items) /\
  0 < bb_factor it /\ In it items /\
  (forall y, length y = length items -> late y -> pending y [mk_node v1 (rc_value it) (bb_factor it) 0] \/ pending y [init_node_0 fo items]) /\
  (forall y, length y = length items -> nth_error y 0 = Some true -> bb_factor it <= fval items y).
Proof.
  destruct items as [|it l] eqn:Ei; [cbn in Hn; lia|].
  exists (true :: repeat false (length l)), it. unfold init_node_1. cbn [nth_error bind length repeat list_upd].
  split; [reflexivity|]. split; [reflexivity|].
  assert (Hff : false_from (repeat false (length l)) 0).
  { intros j b _ Hb. rewrite nth_error_repeat in Hb. destruct (Nat.ltb j (length l)); congruence. }
  split; [|split; [|split; [|split; [|split]]]].
  - split; [cbn; rewrite repeat_length; reflexivity|]. split; [cbn; lia|]. split; [|split].
    + intros [|j] b Hj Hb; cbn in Hj, Hb; [lia|]. apply (Hff j b); [lia|assumption].
    + cbn. rewrite chosen_false by assumption. reflexivity.
    + cbn. rewrite fval_false by assumption. lia.
  - split; [cbn; rewrite repeat_length; reflexivity|]. split; [cbn; lia|]. split; [|split].
    + intros [|j] b Hj Hb; cbn in Hj, Hb; [lia|]. apply (Hff j b); [lia|assumption].
    + cbn. rewrite chosen_false by assumption. reflexivity.
    + cbn. rewrite fval_false by assumption. reflexivity.
  - unfold bb_factor. pose proof (Hnz it (or_introl eq_refl)). lia.
  - left. reflexivity.
  - intros [|b y] HL (j & Hj & Hjt); [cbn in HL; lia|]. destruct b; [left|right].
    + eexists. split; [left; reflexivity|]. cbn. split; [|exists j; split; assumption].
      intros [|i] Hi; [reflexivity|lia].
    + eexists. split; [left; reflexivity|]. cbn. split; [|exists j; split; assumption].
      intros [|i] Hi; [reflexivity|lia].
  - intros [|b y] HL H0; [cbn in HL; lia|]. cbn in H0. inversion H0; subst. cbn [fval].
    pose proof (fval_mono l (repeat false (length y)) y ltac:(rewrite repeat_length; reflexivity)) as Hm.
    assert (Hz : fval l (repeat false (length y)) = 0).
    { apply fval_false. intros j b _ Hb. rewrite nth_error_repeat in Hb. destruct (Nat.ltb j (length y)); congruence. }
    rewrite Hz in Hm. assert (0 <= fval l y); [|lia]. apply Hm.
    intros j Hj. rewrite nth_error_repeat in Hj. destruct (Nat.ltb j (length y)); discriminate.
Qed.

Lemma turns_init nodes : (length nodes <= 2)%nat -> (forall nd, In nd nodes -> nd_level nd = 0%nat) ->
  (turns items nodes <= bb_fuel items)%nat.
Proof.
  intros Hl H0. unfold bb_fuel. cbn [Nat.pow].
  destruct nodes as [|a [|b [|c nodes]]]; cbn [length] in Hl; [cbn; lia| | |lia]; cbn [turns];
    rewrite ?(H0 a), ?(H0 b) by (cbn; auto); rewrite Nat.sub_0_r; lia.
Qed.

Lemma after_explore equality s : (equality = true -> b_min = b_max) -> bb_inv items b_min b_max s ->
  (turns items (bb_nodes s) <= bb_fuel items)%nat ->
  exists s', explore fo (bb_fuel items) equality mode items b_min b_max s = Some s' /\ answer_ok (bb_solution s').
Proof.
  intros Heq Hinv Ht. destruct (explore_inv items b_min b_max equality Hnz Heq Hfin (bb_fuel items) s Hinv Ht) as (s' & Es & (_ & Hlow & Hall & Hearly & Hlen) & Hemp).
  exists s'. split; [exact Es|]. split; [assumption|]. rewrite Hemp in Hall.
  assert (Hl : forall y, fitn y -> late y -> fitn (bb_solution s') /\ bb_lower s' = val items (bb_solution s') /\ better (val items y) (bb_lower s') = false).
  { intros y Hy Hl. destruct (Hall y Hy Hl) as [(a & [] & _)|H]. assumption. }
  assert (Hdec : forall y, late y \/ ~ late y).
  { intros [|b y]; [right; intros (j & _ & H); destruct j; discriminate|].
    destruct (existsb (fun x => x) y) eqn:Ex.
    - left. apply existsb_exists in Ex. destruct Ex as (x & Hx & ->). apply In_nth_error in Hx. destruct Hx as [i Hi].
      exists (S i). split; [lia|assumption].
    - right. intros ([|j] & Hj & H); [lia|]. cbn in H. apply nth_error_In in H.
      assert (existsb (fun x => x) y = true) by (apply existsb_exists; eauto). congruence. }
  split.
  - intros (y & Hy). destruct (Hdec y) as [H|H]; [apply (Hl y Hy H)|eapply Hearly; eassumption].
  - intros y Hy Hly. destruct (Hl y Hy Hly) as (_ & <- & H). assumption.
Qed.

Lemma solve_equality_ok : b_min = b_max ->
  exists sol, solve_equality fo init_z mode items b_min b_max = Some sol /\ answer_ok sol.
Proof.
  intros Hb. unfold solve_equality. cbn [init_node_0 nd_sumfactor nd_variables].
  destruct init_facts as (v1 & it & E1 & Hv1 & Hok1 & Hok0 & Hpos & Hin & Hpend & _).
  assert (Hff : false_from (repeat false (length items)) 0).
  { intros j b _ Hj. rewrite nth_error_repeat in Hj. destruct (Nat.ltb j (length items)); congruence. }
  destruct (Z.eqb_spec 0 b_min) as [E0|E0].
  - eexists. split; [reflexivity|]. split; [apply repeat_length|].
    assert (fitn (repeat false (length items))) by (split; [apply repeat_length|]; rewrite fval_false by assumption; lia).
    split; [auto|]. intros y [HyL Hyb] (j & _ & Hj). exfalso.
    assert (fval items (repeat false (length items)) < fval items y).
    { apply (fval_strict items _ y j); rewrite ?repeat_length; try lia; try assumption.
      - intros k Hk. rewrite nth_error_repeat in Hk. destruct (Nat.ltb k (length items)); discriminate.
      - rewrite nth_error_repeat. destruct (Nat.ltb_spec j (length items)); [reflexivity|].
        assert (j < length y)%nat by (apply nth_error_Some; congruence). lia. }
    rewrite fval_false in H0 by assumption. lia.
  - rewrite E1. cbn [bind nd_sumfactor nd_variables].
    assert (Hz : ~ fitn (repeat false (length items))).
    { intros [_ H]. rewrite fval_false in H by assumption. lia. }
    destruct Hok1 as (Hl1 & Hok1r). pose proof Hok1r as (_ & _ & _ & Hsf). cbn [nd_variables nd_sumfactor] in Hl1, Hsf.
    destruct (Z.eqb_spec (bb_factor it) b_min) as [Eb|Eb].
    + destruct (after_explore true (mk_bb [init_node_0 fo items] v1 init_z)) as (s' & -> & Hans); [auto| | |cbn [bind]; eauto].
      * split; [intros nd [<-|[]]; assumption|]. split; [left; reflexivity|]. cbn [bb_nodes bb_solution bb_lower].
        assert (Hf1 : fitn v1) by (split; [assumption|lia]).
        split; [|split; [auto|assumption]].
        intros y Hy Hl. left. destruct Hy as [HyL Hyb]. destruct (Hpend y HyL Hl) as [(a & [<-|[]] & Hag & j & Hj & Hjt)|H]; [|assumption].
        exfalso. cbn [nd_level nd_variables] in *.
        assert (fval items v1 < fval items y); [|lia].
        assert (Hv1n : forall k, nth_error v1 k = if Nat.eqb k 0 then Some true else nth_error (repeat false (length items)) k).
        { intros k. apply (list_upd_nth _ _ _ _ k Hv1). }
        apply (fval_strict items v1 y j); try assumption; try lia.
        -- intros k Hk. rewrite Hv1n in Hk. destruct (Nat.eqb_spec k 0) as [Ek|Ek].
           ++ rewrite Ek, (Hag 0%nat); [rewrite Hv1n; reflexivity|lia].
           ++ rewrite nth_error_repeat in Hk. destruct (Nat.ltb k (length items)); discriminate.
        -- rewrite Hv1n. destruct (Nat.eqb_spec j 0); [lia|]. rewrite nth_error_repeat.
           destruct (Nat.ltb_spec j (length items)); [reflexivity|].
           assert (j < length y)%nat by (apply nth_error_Some; congruence). lia.
      * apply turns_init; [cbn; lia|]. intros nd [<-|[]]. reflexivity.
    + destruct (after_explore true (mk_bb [mk_node v1 (rc_value it) (bb_factor it) 0; init_node_0 fo items] (repeat false (length items)) init_z)) as (s' & -> & Hans); [auto| | |cbn [bind]; eauto].
      * split; [intros nd [<-|[<-|[]]]; [split; assumption|assumption]|]. split; [left; reflexivity|]. cbn [bb_nodes bb_solution bb_lower].
        split; [|split; [|apply repeat_length]].
        -- intros y [HyL _] Hl. left. destruct (Hpend y HyL Hl) as [(a & [<-|[]] & H)|(a & [<-|[]] & H)];
             (eexists; split; [|exact H]); cbn; auto.
        -- intros y Hy Hnl. exfalso. destruct (not_late_cases items y) as [->|Hy1]; [apply Hy|assumption|lia|contradiction|].
           assert (y = v1) by congruence. subst. destruct Hy as [_ Hy]. lia.
      * apply turns_init; [cbn; lia|]. intros nd [<-|[<-|[]]]; reflexivity.
Qed.

Lemma solve_inequality_ok : b_min <= b_max ->
  exists sol, solve_inequality fo init_z mode items b_min b_max = Some sol /\ answer_ok sol.
Proof.
  intros Hb. unfold solve_inequality.
  destruct init_facts as (v1 & it & E1 & Hv1 & Hok1 & Hok0 & Hpos & Hin & Hpend & Hfirst). rewrite E1. cbn [bind].
  assert (Hff : false_from (repeat false (length items)) 0).
  { intros j b _ Hj. rewrite nth_error_repeat in Hj. destruct (Nat.ltb j (length items)); congruence. }
  pose proof Hok1 as (Hl1 & _ & _ & _ & Hsf). cbn [nd_variables nd_sumfactor] in Hl1, Hsf.
  set (n1 := mk_node v1 (rc_value it) (bb_factor it) 0) in *. set (n0 := init_node_0 fo items) in *.
  assert (H0f : fitn (repeat false (length items)) <-> b_min <= 0 <= b_max).
  { unfold fits. rewrite fval_false by assumption. rewrite repeat_length. tauto. }
  assert (H1f : fitn v1 <-> b_min <= bb_factor it <= b_max).
  { unfold fits. rewrite <- Hsf. tauto. }
  unfold push_init. change (nd_sumfactor n0) with 0. change (nd_variables n0) with (repeat false (length items)).
  change (nd_sumfactor n1) with (bb_factor it). change (nd_variables n1) with v1.
  (* final states *)
  assert (Hgo : forall ns sol, (forall nd, In nd ns -> nd = n0 \/ nd = n1) -> (length ns <= 2)%nat ->
      (In n0 ns \/ b_max < 0) -> (In n1 ns \/ b_max < bb_factor it) ->
      (fitn (repeat false (length items)) \/ fitn v1 -> fitn sol) -> length sol = length items ->
      exists s', explore fo (bb_fuel items) false mode items b_min b_max (mk_bb ns sol init_z) = Some s' /\ answer_ok (bb_solution s')).
  { intros ns sol Hns Hlen Hi0 Hi1 Hsol Hls. apply after_explore; [discriminate| |].
    - split; [intros nd Hnd; destruct (Hns nd Hnd) as [->| ->]; assumption|]. split; [left; reflexivity|].
      cbn [bb_nodes bb_solution bb_lower]. split; [|split; [|assumption]].
      + intros y [HyL Hyb] Hl. left. destruct (Hpend y HyL Hl) as [(a & [<-|[]] & H)|(a & [<-|[]] & H)].
        * destruct Hi1 as [Hi1|Hi1]; [exists n1; auto|]. exfalso.
          destruct H as [Hag _]. specialize (Hag 0%nat (Nat.le_refl _)). cbn [n1 nd_variables] in Hag.
          rewrite (list_upd_nth _ _ _ _ 0%nat Hv1) in Hag. cbn in Hag.
          pose proof (Hfirst y HyL Hag). lia.
        * destruct Hi0 as [Hi0|Hi0]; [exists n0; auto|]. exfalso.
          pose proof (fval_mono items (repeat false (length items)) y) as Hm. rewrite fval_false, repeat_length in Hm by assumption.
          assert (0 <= fval items y); [|lia]. apply Hm; [lia|].
          intros j Hj. rewrite nth_error_repeat in Hj. destruct (Nat.ltb j (length items)); discriminate.
      + intros y Hy Hnl. apply Hsol. destruct (not_late_cases items y) as [->|Hy1]; [apply Hy|assumption|lia|left; assumption|].
        right. assert (y = v1) by congruence. subst. assumption.
    - apply turns_init; [assumption|]. intros nd Hnd. cbn in Hnd. destruct (Hns nd Hnd) as [->| ->]; reflexivity. }
  destruct ((b_min <=? 0) && (0 <=? b_max)) eqn:Ea; [apply andb_true_iff in Ea|apply andb_false_iff in Ea; destruct (Z.ltb_spec b_max 0)];
    (destruct ((b_min <=? bb_factor it) && (bb_factor it <=? b_max)) eqn:Ec;
       [apply andb_true_iff in Ec|apply andb_false_iff in Ec; destruct (Z.ltb_spec b_max (bb_factor it))]);
    cbv beta iota;
    match goal with
    | |- context[explore _ _ _ _ _ _ _ (mk_bb ?ns ?sol _)] =>
        destruct (Hgo ns sol) as (s' & -> & Hans);
          [cbn; intros; intuition subst; auto|cbn; lia|cbn; first [left; solve [auto]|right; lia]|cbn; first [left; solve [auto]|right; lia]
          |rewrite ?H0f, ?H1f; lia|first [assumption|apply repeat_length]|cbn [bind]; eauto]
    end.
Qed.
End Init.
End BB.

(** ** solve *)
Section Solve.
Context {F : Type} (fo : fops F)
        (std_sort : forall A : Type, (A -> A -> bool) -> list A -> list A) (init_z : F) (mode : objective_type).
Hypothesis (Hperm : permutes std_sort) (Hsort : sorts std_sort) (Hw : weak_order (fl_lt fo)).

Fixpoint result_bits (items : list (rc F)) (sol : list bool) : list bool :=
  match items, sol with
  | r :: l, b :: s => (if 0 <? rc_f r then b else negb b) :: result_bits l s
  | _, _ => []
  end.
Lemma bb_results_combine items sol : bb_results items sol = combine items (result_bits items sol).
Proof. revert sol; induction items as [|r l IH]; intros [|b s]; cbn; try reflexivity. rewrite IH. reflexivity. Qed.
Lemma result_bits_length items sol : length sol = length items -> length (result_bits items sol) = length items.
Proof. revert sol; induction items as [|r l IH]; intros [|b s] H; cbn in *; try lia. rewrite IH; lia. Qed.
Lemma result_bits_involutive items sol : length sol = length items -> result_bits items (result_bits items sol) = sol.
Proof.
  revert sol; induction items as [|r l IH]; intros [|b s] H; cbn in *; try lia; [reflexivity|].
  rewrite IH by lia. destruct (0 <? rc_f r); [reflexivity|]. rewrite negb_involutive. reflexivity.
Qed.
Lemma result_bits_value items sol : (forall r, In r items -> rc_f r <> 0) -> length sol = length items ->
  sum_factors (chosen items (result_bits items sol)) = fval items sol - negative_sum items.
Proof.
  revert sol; induction items as [|r l IH]; intros [|b s] Hnz H; cbn [length] in *; try lia; [reflexivity|].
  cbn [result_bits chosen fval negative_sum].
  assert (E : sum_factors (chosen l (result_bits l s)) = fval l s - negative_sum l).
  { apply IH; [intros; apply Hnz; right; assumption|lia]. }
  pose proof (Hnz r (or_introl eq_refl)). unfold bb_factor.
  destruct (Z.ltb_spec 0 (rc_f r)), (Z.ltb_spec (rc_f r) 0), b; cbn [negb sum_factors]; lia.
Qed.
Lemma result_bits_positive items sol : (forall r, In r items -> 0 < rc_f r) -> length sol = length items -> result_bits items sol = sol.
Proof.
  revert sol; induction items as [|r l IH]; intros [|b s] Hp H; cbn in *; try lia; [reflexivity|].
  rewrite IH; [|intros; apply Hp; auto|lia]. pose proof (Hp r (or_introl eq_refl)). destruct (Z.ltb_spec 0 (rc_f r)); [reflexivity|lia].
Qed.

Lemma chosen_perm {A} (l l' : list A) u : Permutation l l' -> length u = length l ->
  exists u', length u' = length l' /\ Permutation (chosen l u) (chosen l' u').
Proof.
  intros H. revert u. induction H as [|x l l' H IH|x y l|l1 l2 l3 H1 IH1 H2 IH2]; intros u Hu.
  - exists []. split; [reflexivity|]. destruct u; reflexivity.
  - destruct u as [|b u]; [discriminate|]. destruct (IH u) as (u' & Hl & Hp); [cbn in Hu; lia|].
    exists (b :: u'). split; [cbn; lia|]. cbn. destruct b; [constructor|]; assumption.
  - destruct u as [|b [|c u]]; try discriminate. exists (c :: b :: u). split; [cbn in *; lia|].
    cbn. destruct b, c; try reflexivity. constructor.
  - destruct (IH1 u Hu) as (u2 & Hl2 & Hp2). destruct (IH2 u2 Hl2) as (u3 & Hl3 & Hp3).
    exists u3. split; [assumption|]. etransitivity; eassumption.
Qed.
Lemma sum_factors_perm (l l' : list (rc F)) : Permutation l l' -> sum_factors l = sum_factors l'.
Proof. induction 1; cbn; lia. Qed.
Lemma chosen_not_chosen {A} (l : list A) u : length u = length l -> Permutation (chosen l u ++ not_chosen l u) l.
Proof.
  unfold not_chosen. revert u; induction l as [|a l IH]; intros [|b u] H; cbn in *; try lia; [constructor|].
  destruct b; cbn.
  - constructor. apply IH. lia.
  - rewrite <- Permutation_middle. constructor. apply IH. lia.
Qed.

Lemma bb_solve_ok R lo hi : (4 <= length R)%nat -> lo <= hi -> (forall r, In r R -> rc_f r <> 0) ->
  sums_finite fo mode init_z R ->
  exists R' sel, bb_solve fo std_sort init_z mode R lo hi = Some (R', sel) /\ Permutation R' R /\
    -1 <= sel <= Z.of_nat (length R) /\ sel <> Z.of_nat (length R) - 1 /\
    (reachable_between R lo hi -> lo <= selected_value R' sel <= hi) /\
    ((forall r, In r R -> 0 < rc_f r) ->
      exists first rest a, Permutation (first :: rest) R /\ length a = length R /\
        Permutation (firstn (Z.to_nat (sel + 1)) R') (chosen (first :: rest) a) /\
        forall b u, length u = length rest -> In true u -> lo <= sum_factors (chosen (first :: rest) (b :: u)) <= hi ->
          better fo mode (val fo (first :: rest) (b :: u)) (val fo (first :: rest) a) = false).
Proof.
  intros Hn Hlh Hnz Hfin. unfold bb_solve.
  destruct (Nat.leb_spec 4 (length R)); [|lia]. destruct (Z.leb_spec lo hi); [|lia]. cbn [andb].
  set (items := std_sort _ (item_lt fo mode) R).
  assert (Hp : Permutation items R) by apply Hperm.
  assert (HL : length items = length R) by (apply Permutation_length; assumption).
  assert (Hnz' : forall r, In r items -> rc_f r <> 0) by (intros r Hr; apply Hnz; eapply Permutation_in; eassumption).
  assert (Hfin' : forall y, length y = length items -> better fo mode (val fo items y) init_z = true).
  { intros y Hy. pose proof (perm_trans (chosen_not_chosen items y Hy) Hp) as Hc.
    destruct (Hfin _ _ Hc) as [H1 H2]. destruct items as [|r l]; [cbn in HL; lia|]. destruct y as [|b y]; [discriminate|].
    cbn [val chosen] in *. destruct b; assumption. }
  set (N := negative_sum items). 
  assert (Hsol : exists sol, (if hi + N =? lo + N then solve_equality fo init_z mode items (lo + N) (hi + N) else solve_inequality fo init_z mode items (lo + N) (hi + N)) = Some sol
      /\ answer_ok fo mode items (lo + N) (hi + N) sol).
  { destruct (Z.eqb_spec (hi + N) (lo + N)).
    - apply solve_equality_ok; try assumption; lia.
    - apply solve_inequality_ok; try assumption; lia. }
  destruct Hsol as (sol & -> & Hsl & Hfit & Hbest). cbn [bind]. rewrite bb_results_combine.
  destruct (finish_ok fo std_sort Hperm Hsort Hw mode items (result_bits items sol)) as (R' & sel & -> & HP & Hsel & HT & _ & _ & Hne).
  { intros E. rewrite E in HL. cbn in HL. lia. } { apply result_bits_length. assumption. }
  rewrite HL in Hsel, Hne. exists R', sel. split; [reflexivity|]. split; [rewrite HP; assumption|]. split; [assumption|]. split; [assumption|]. split.
  - intros (u & Hu & Hb). unfold selected_value. rewrite (sum_factors_perm _ _ HT), result_bits_value by assumption. fold N.
    assert (Hf : fits items (lo + N) (hi + N) sol); [|destruct Hf; lia].
    apply Hfit. destruct (chosen_perm R items u) as (v & Hv & Hcp); [symmetry; assumption|assumption|].
    exists (result_bits items v). split; [apply result_bits_length; assumption|].
    pose proof (result_bits_value items (result_bits items v) Hnz' (result_bits_length _ _ Hv)) as E.
    rewrite result_bits_involutive in E by assumption. rewrite <- (sum_factors_perm _ _ Hcp) in E. fold N in E. lia.
  - intros Hpos. assert (Hpos' : forall r, In r items -> 0 < rc_f r) by (intros r Hr; apply Hpos; eapply Permutation_in; eassumption).
    rewrite (result_bits_positive items sol Hpos' Hsl) in HT.
    destruct items as [|first rest] eqn:Ei; [cbn in HL; lia|].
    exists first, rest, sol. split; [assumption|]. split; [lia|]. split; [assumption|].
    intros b u Hu Ht Hv. apply Hbest.
    + split; [cbn; lia|]. pose proof (result_bits_value (first :: rest) (b :: u) Hnz' ltac:(cbn; lia)) as E.
      rewrite (result_bits_positive (first :: rest)) in E by (assumption || (cbn; lia)). fold N in E. lia.
    + apply In_nth_error in Ht. destruct Ht as [j Hj]. exists (S j). split; [lia|assumption].
Qed.
End Solve.
