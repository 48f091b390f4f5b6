From Verif Require Import Base Dynarray_model Dynarray_spec.

Lemma resize_length {T} (z : T) l n : length (resize z l n) = n.
Proof. unfold resize. rewrite app_length, firstn_length, repeat_length. lia. Qed.
Lemma resize_nth {T} (z : T) l n k : k < n ->
  nth_error (resize z l n) k = if Nat.ltb k (length l) then nth_error l k else Some z.
Proof.
  intros Hk. unfold resize. destruct (Nat.ltb_spec k (length l)) as [H|H].
  - rewrite nth_error_app1 by (rewrite firstn_length; lia).
    revert n l Hk H. induction k as [|k IH]; intros [|n] [|a l] Hk H; cbn in *; try lia; [reflexivity|].
    apply IH; lia.
  - rewrite nth_error_app2 by (rewrite firstn_length; lia).
    rewrite firstn_length, nth_error_repeat. destruct (Nat.ltb_spec (k - Nat.min n (length l)) (n - length l)); [reflexivity|lia].
Qed.

Record inv {T} (z : T) (rows0 cols : nat) (calls : list (call T)) (d : dynarray T) : Prop := {
  inv_cols : dy_cols d = cols;
  inv_rows : dy_rows d = rows_after rows0 calls;
  inv_cap : dy_rows d <= dy_capacity d /\ size_max <= dy_capacity d;
  inv_length : length (dy_data d) = dy_capacity d * cols;
  inv_cell : forall r c, r < dy_capacity d -> c < cols -> nth_error (dy_data d) (r * cols + c) = Some (last_written z calls r c);
  inv_out : forall r c, dy_capacity d <= r -> last_written z calls r c = z }.

Lemma cell_below r c rows cols : r < rows -> c < cols -> r * cols + c < rows * cols.
Proof. intros. nia. Qed.
Lemma cell_inj r c r' c' cols : c < cols -> c' < cols -> r * cols + c = r' * cols + c' -> r = r' /\ c = c'.
Proof.
  intros H H' E.
  assert (r = r') by (destruct (Nat.lt_trichotomy r r') as [L|[L|L]]; [exfalso; nia|exact L|exfalso; nia]).
  subst. lia.
Qed.

Lemma push_inv {T} (z : T) rows0 cols calls d : inv z rows0 cols calls d -> inv z rows0 cols (Push_line :: calls) (dy_push_line z d).
Proof.
  intros [Hc Hr Hcap Hl Hcell Hout]. unfold dy_push_line. destruct (Nat.ltb_spec (dy_capacity d) (S (dy_rows d))) as [L|L].
  - assert (Hg : dy_capacity d + 1 <= dy_capacity d * 3 / 2) by (apply Nat.div_le_lower_bound; unfold size_max in *; lia).
    constructor; cbn [dy_cols dy_rows dy_capacity dy_data rows_after last_written].
    + exact Hc.
    + lia.
    + lia.
    + rewrite resize_length, Hc. reflexivity.
    + intros r c Hr' Hc'. rewrite resize_nth by (rewrite Hc; apply cell_below; assumption).
      destruct (Nat.ltb_spec (r * cols + c) (length (dy_data d))) as [K|K].
      * apply Hcell; [|exact Hc']. rewrite Hl in K. nia.
      * rewrite Hout; [reflexivity|]. rewrite Hl in K. destruct (Nat.le_gt_cases (dy_capacity d) r) as [?|G]; [assumption|].
        pose proof (cell_below r c _ cols G Hc'). lia.
    + intros r c G. apply Hout. lia.
  - constructor; cbn [dy_cols dy_rows dy_capacity dy_data rows_after last_written]; auto; lia.
Qed.

Lemma pop_inv {T} (z : T) rows0 cols calls d : inv z rows0 cols calls d -> inv z rows0 cols (Pop_line :: calls) (dy_pop_line d).
Proof.
  intros [Hc Hr Hcap Hl Hcell Hout]. constructor; cbn [dy_pop_line dy_cols dy_rows dy_capacity dy_data rows_after last_written]; auto; lia.
Qed.

Lemma set_inv {T} (z : T) rows0 cols calls d r c v : inv z rows0 cols calls d -> r < dy_rows d -> c < cols ->
  exists d', dy_set d r c v = Some d' /\ inv z rows0 cols (Write r c v :: calls) d'.
Proof.
  intros [Hc Hr Hcap Hl Hcell Hout] Lr Lc. unfold dy_set. rewrite Hc.
  destruct (list_upd_some (dy_data d) (r * cols + c) v) as [l' E]; [rewrite Hl; apply cell_below; lia|].
  rewrite E. cbn. eexists. split; [reflexivity|]. constructor; cbn [dy_cols dy_rows dy_capacity dy_data rows_after last_written]; auto.
  - rewrite (list_upd_length _ _ _ _ E). exact Hl.
  - intros r' c' Hr' Hc'. rewrite (list_upd_nth _ _ _ _ _ E).
    destruct (Nat.eqb_spec (r' * cols + c') (r * cols + c)) as [K|K].
    + destruct (cell_inj _ _ _ _ _ Hc' Lc K) as [-> ->]. rewrite !Nat.eqb_refl. reflexivity.
    + rewrite Hcell by assumption. destruct (Nat.eqb_spec r r') as [->|]; cbn; [|reflexivity].
      destruct (Nat.eqb_spec c c') as [->|]; [lia|reflexivity].
  - intros r' c' G. destruct (Nat.eqb_spec r r') as [->|]; cbn; [lia|]. apply Hout. exact G.
Qed.

Lemma fresh_inv {T} (z : T) rows cap cols : rows <= cap -> size_max <= cap ->
  inv z rows cols [] (mk_dyn (resize z [] (cap * cols)) cols cap rows).
Proof.
  intros H H2. constructor; cbn [dy_cols dy_rows dy_capacity dy_data rows_after last_written]; auto.
  - apply resize_length.
  - intros r c Hr Hc. rewrite resize_nth by (apply cell_below; assumption). destruct (r * cols + c); reflexivity.
Qed.

Lemma init_inv {T} (z : T) cols : inv z 0 cols [] (dy_init z cols dy_new).
Proof. unfold dy_init, dy_new. cbn [dy_data]. apply fresh_inv; unfold size_max; lia. Qed.
Lemma init2_inv {T} (z : T) rows cols : inv z rows cols [] (dy_init2 z rows cols dy_new).
Proof.
  unfold dy_init2, dy_new. cbn [dy_data].
  assert (K : rows < compute_capacity rows).
  { unfold compute_capacity. pose proof (Nat.div_mod rows size_max ltac:(unfold size_max; lia)).
    pose proof (Nat.mod_upper_bound rows size_max ltac:(unfold size_max; lia)). nia. }
  assert (size_max <= compute_capacity rows).
  { unfold compute_capacity. pose proof (Nat.le_0_l (rows / size_max)). nia. }
  apply fresh_inv; lia.
Qed.

Lemma apply_inv {T} (z : T) rows0 cols d0 : inv z rows0 cols [] d0 -> forall calls, legal rows0 cols calls ->
  exists d, apply z calls d0 = Some d /\ inv z rows0 cols calls d.
Proof.
  intros H0 calls. induction calls as [|[| |r c v] calls IH]; cbn [legal apply]; intros H.
  - eauto.
  - destruct (IH H) as (d & -> & Hd). cbn. eexists; split; [reflexivity|]. apply push_inv, Hd.
  - destruct (IH H) as (d & -> & Hd). cbn. eexists; split; [reflexivity|]. apply pop_inv, Hd.
  - destruct H as (Hr & Hc & H). destruct (IH H) as (d & -> & Hd). cbn.
    apply set_inv; auto. rewrite (inv_rows _ _ _ _ _ Hd). exact Hr.
Qed.
