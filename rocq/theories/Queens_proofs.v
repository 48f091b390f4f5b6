(** Proofs about the n-queens generator. *)
From Coq Require Import Permutation.
From Verif Require Import Base Queens_model Queens_spec.
Open Scope Z_scope.

Lemma in_range a b k : In k (range a b) <-> a <= k < b.
Proof.
  unfold range. rewrite in_map_iff. split.
  - intros (i & <- & Hi). apply in_seq in Hi. lia.
  - intros H. exists (Z.to_nat (k - a)). split; [lia|]. apply in_seq. lia.
Qed.
Lemma range_nodup a b : NoDup (range a b).
Proof. unfold range. apply FinFun.Injective_map_NoDup; [intros x y; lia|apply seq_NoDup]. Qed.
Lemma range_length a b : length (range a b) = Z.to_nat (b - a).
Proof. unfold range. rewrite map_length, seq_length. reflexivity. Qed.

(** Sums of 0/1 values over lists without repetition. *)
Lemma line_sum_nonneg q l : 0 <= line_sum q l.
Proof. induction l as [|c l IH]; cbn; [lia|]. destruct (q _ _); lia. Qed.
Lemma line_sum_filter q l : line_sum q l = Z.of_nat (length (filter (fun c => q (fst c) (snd c)) l)).
Proof. induction l as [|c l IH]; cbn [line_sum filter]; [reflexivity|]. destruct (q _ _); cbn [length]; lia. Qed.
Lemma line_sum_app q a b : line_sum q (a ++ b) = line_sum q a + line_sum q b.
Proof. induction a as [|c a IH]; cbn; [reflexivity|]. rewrite IH. lia. Qed.
Lemma line_sum_le1 q l : NoDup l ->
  (line_sum q l <= 1 <-> forall a b, In a l -> In b l -> q (fst a) (snd a) = true -> q (fst b) (snd b) = true -> a = b).
Proof.
  intros Hnd. induction Hnd as [|c l Hn Hnd IH]; cbn; [split; [intros _ a b []|lia]|]. pose proof (line_sum_nonneg q l) as Hge. 
  split.
  - intros Hs a b Ha Hb Qa Qb. destruct (q (fst c) (snd c)) eqn:Ec.
    + assert (Hz : forall d, In d l -> q (fst d) (snd d) = false).
      { intros d Hd. destruct (q (fst d) (snd d)) eqn:Ed; [|reflexivity]. exfalso.
        assert (1 <= line_sum q l); [|lia]. rewrite line_sum_filter. assert (In d (filter (fun c => q (fst c) (snd c)) l)) as HI by (apply filter_In; auto).
        match goal with |- context [length ?f] => change f with (filter (fun c : Z * Z => q (fst c) (snd c)) l) end; destruct (filter (fun c : Z * Z => q (fst c) (snd c)) l); [destruct HI|cbn [length]; lia]. }
      destruct Ha as [<-|Ha]; [|rewrite Hz in Qa by assumption; discriminate]. destruct Hb as [<-|Hb]; [reflexivity|rewrite Hz in Qb by assumption; discriminate].
    + destruct Ha as [<-|Ha]; [congruence|]. destruct Hb as [<-|Hb]; [congruence|]. apply IH; auto; lia.
  - intros H. assert (HI : line_sum q l <= 1) by (apply IH; intros; apply H; auto). destruct (q (fst c) (snd c)) eqn:Ec; [|lia].
    assert (Hz : line_sum q l = 0); [|lia]. rewrite line_sum_filter.
    destruct (filter (fun c => q (fst c) (snd c)) l) as [|d f] eqn:Ef; [reflexivity|]. exfalso.
    assert (Hd : In d (filter (fun c => q (fst c) (snd c)) l)) by (rewrite Ef; left; reflexivity). apply filter_In in Hd. destruct Hd as [Hd Qd].
    apply Hn. rewrite (H c d); auto.
Qed.

(** The walks. *)
Lemma walk_spec fuel go di : forall i j, forall c, In c (walk fuel go di i j) -> exists k, (0 <= k) /\ c = (i + k * di, j + k).
Proof.
  induction fuel as [|f IH]; intros i j c; cbn; [intros []|]. destruct (go i j); [|intros []]. intros [<-|H].
  - exists 0. split; [lia|]. f_equal; lia.
  - apply IH in H. destruct H as (k & Hk & ->). exists (k + 1). split; [lia|]. f_equal; lia.
Qed.
Lemma walk_in fuel go di : forall i j k, (0 <= k) -> k < Z.of_nat fuel -> (forall k', 0 <= k' <= k -> go (i + k' * di) (j + k') = true) ->
  In (i + k * di, j + k) (walk fuel go di i j).
Proof.
  induction fuel as [|f IH]; intros i j k Hk Hf Hgo; [lia|]. cbn.
  pose proof (Hgo 0 ltac:(lia)) as H0. rewrite Z.mul_0_l, !Z.add_0_r in H0. rewrite H0.
  destruct (Z.eq_dec k 0) as [->|Hn]; [left; f_equal; lia|]. right.
  replace (i + k * di, j + k) with ((i + di) + (k - 1) * di, (j + 1) + (k - 1)) by (f_equal; lia).
  apply IH; [lia|lia|]. intros k' Hk'. replace (i + di + k' * di) with (i + (k' + 1) * di) by lia. replace (j + 1 + k') with (j + (k' + 1)) by lia. apply Hgo. lia.
Qed.
Lemma walk_go fuel go di : forall i j c, In c (walk fuel go di i j) -> go (fst c) (snd c) = true.
Proof.
  induction fuel as [|f IH]; intros i j c; cbn; [intros []|]. destruct (go i j) eqn:E; [|intros []]. intros [<-|H]; [exact E|eapply IH; exact H].
Qed.
Lemma walk_nodup fuel go di : forall i j, NoDup (walk fuel go di i j).
Proof.
  induction fuel as [|f IH]; intros i j; cbn; [constructor|]. destruct (go i j); [|constructor]. constructor; [|apply IH].
  intros H. apply walk_spec in H. destruct H as (k & Hk & E). inversion E. lia.
Qed.

(** Rows and columns. *)
Definition row_cells (n i : Z) : list cell := map (fun j => (i, j)) (range 0 n).
Definition col_cells (n j : Z) : list cell := map (fun i => (i, j)) (range 0 n).
Lemma in_row n i c : In c (row_cells n i) <-> fst c = i /\ 0 <= snd c < n.
Proof.
  unfold row_cells. rewrite in_map_iff. split; [intros (j & <- & H); apply in_range in H; cbn; lia|].
  destruct c as [a b]. cbn. intros [-> H]. exists b. split; [reflexivity|]. apply in_range. lia.
Qed.
Lemma in_col n j c : In c (col_cells n j) <-> snd c = j /\ 0 <= fst c < n.
Proof.
  unfold col_cells. rewrite in_map_iff. split; [intros (i & <- & H); apply in_range in H; cbn; lia|].
  destruct c as [a b]. cbn. intros [-> H]. exists a. split; [reflexivity|]. apply in_range. lia.
Qed.
Lemma row_nodup n i : NoDup (row_cells n i).
Proof. apply FinFun.Injective_map_NoDup; [intros x y H; congruence|apply range_nodup]. Qed.
Lemma col_nodup n j : NoDup (col_cells n j).
Proof. apply FinFun.Injective_map_NoDup; [intros x y H; congruence|apply range_nodup]. Qed.

(** All cells, row by row or column by column. *)
Definition all_rows (n : Z) (is : list Z) : list cell := flat_map (row_cells n) is.
Definition all_cols (n : Z) (js : list Z) : list cell := flat_map (col_cells n) js.
Lemma NoDup_app' {A} (a b : list A) : NoDup a -> NoDup b -> (forall x, In x a -> ~ In x b) -> NoDup (a ++ b).
Proof.
  intros Ha Hb H. induction Ha as [|x a Hx Ha IH]; cbn; [assumption|]. constructor.
  - rewrite in_app_iff. intros [Hi|Hi]; [contradiction|]. apply (H x); [left; reflexivity|assumption].
  - apply IH. intros y Hy. apply H. right. assumption.
Qed.
Lemma flat_nodup (f : Z -> list cell) l : NoDup l -> (forall i, NoDup (f i)) -> (forall i j c, In c (f i) -> In c (f j) -> i = j) -> NoDup (flat_map f l).
Proof.
  intros Hl Hf Hd. induction Hl as [|i l Hi Hl IH]; cbn; [constructor|]. apply NoDup_app'; auto.
  intros c Hc Hc'. apply in_flat_map in Hc'. destruct Hc' as (j & Hj & Hc'). rewrite (Hd i j c Hc Hc') in Hi. contradiction.
Qed.
Lemma rows_nodup n l : NoDup l -> NoDup (all_rows n l).
Proof. intros H. apply flat_nodup; [assumption|apply row_nodup|]. intros i j c Hi Hj. apply in_row in Hi, Hj. lia. Qed.
Lemma cols_nodup n l : NoDup l -> NoDup (all_cols n l).
Proof. intros H. apply flat_nodup; [assumption|apply col_nodup|]. intros i j c Hi Hj. apply in_col in Hi, Hj. lia. Qed.
Lemma rows_all n c : In c (all_rows n (range 0 n)) <-> on_board n c.
Proof.
  unfold all_rows, on_board. rewrite in_flat_map. split.
  - intros (i & Hi & Hc). apply in_range in Hi. apply in_row in Hc. lia.
  - intros [H1 H2]. exists (fst c). split; [apply in_range; lia|apply in_row; lia].
Qed.
Lemma cols_all n c : In c (all_cols n (range 0 n)) <-> on_board n c.
Proof.
  unfold all_cols, on_board. rewrite in_flat_map. split.
  - intros (i & Hi & Hc). apply in_range in Hi. apply in_col in Hc. lia.
  - intros [H1 H2]. exists (snd c). split; [apply in_range; lia|apply in_col; lia].
Qed.
Lemma flat_sum q (f : Z -> list cell) l : (forall i, In i l -> line_sum q (f i) = 1) -> line_sum q (flat_map f l) = Z.of_nat (length l).
Proof.
  induction l as [|i l IH]; intros H; cbn [flat_map length]; [reflexivity|]. rewrite line_sum_app, (H i (or_introl eq_refl)), IH; [lia|]. intros; apply H; right; assumption.
Qed.
Lemma flat_sum_le q (f : Z -> list cell) l : (forall i, In i l -> line_sum q (f i) <= 1) -> line_sum q (flat_map f l) <= Z.of_nat (length l) /\
  (line_sum q (flat_map f l) = Z.of_nat (length l) -> forall i, In i l -> line_sum q (f i) = 1).
Proof.
  induction l as [|i l IH]; intros H; cbn [flat_map length]; [split; [cbn; lia|intros _ i []]|]. rewrite line_sum_app.
  pose proof (H i (or_introl eq_refl)) as Hi. destruct IH as [IH1 IH2]; [intros; apply H; right; assumption|]. split; [lia|].
  intros Heq j [<-|Hj]; [lia|]. apply IH2; [lia|assumption].
Qed.

(** The list of queens has the same length as the sum over any listing of the cells. *)
Lemma queens_sum n q l cells : queens_of n q l -> NoDup cells -> (forall c, In c cells <-> on_board n c) -> line_sum q cells = Z.of_nat (length l).
Proof.
  intros [Hl Hin] Hc Hall. rewrite line_sum_filter. f_equal. apply Permutation_length. apply NoDup_Permutation; [apply NoDup_filter; assumption|assumption|].
  intros c. rewrite filter_In, Hin, Hall. reflexivity.
Qed.

(** Each diagonal constraint is about all the cells of its diagonal. *)
Lemma below_walk n d c : 3 <= n -> 0 <= d -> In c (walk (Z.to_nat n) (fun i j => (i <? n) && (j <? n)) 1 d 0) <-> (on_board n c /\ fst c - snd c = d).
Proof.
  intros Hn Hd. split.
  - intros H. pose proof (walk_go _ _ _ _ _ _ H) as Hg. apply walk_spec in H. destruct H as (k & Hk & ->). cbn in *. apply andb_true_iff in Hg. unfold on_board. cbn. lia.
  - intros [[H1 H2] H3]. destruct c as [a b]. cbn in *. replace (a, b) with (d + b * 1, 0 + b) by (f_equal; lia). apply walk_in; [lia|lia|]. intros. lia.
Qed.
Lemma above_walk n d c : 3 <= n -> 0 <= d -> In c (walk (Z.to_nat n) (fun i j => (0 <=? i) && (j <? n)) 1 0 d) <-> (on_board n c /\ snd c - fst c = d).
Proof.
  intros Hn Hd. split.
  - intros H. pose proof (walk_go _ _ _ _ _ _ H) as Hg. apply walk_spec in H. destruct H as (k & Hk & ->). cbn in *. apply andb_true_iff in Hg. unfold on_board. cbn. lia.
  - intros [[H1 H2] H3]. destruct c as [a b]. cbn in *. replace (a, b) with (0 + a * 1, d + a) by (f_equal; lia). apply walk_in; [lia|lia|]. intros. lia.
Qed.
Lemma anti_walk n i0 j0 c : 3 <= n -> 0 <= i0 < n -> 0 <= j0 < n -> j0 = 0 \/ i0 = n - 1 ->
  In c (walk (Z.to_nat n) (fun i j => (0 <=? i) && (j <? n)) (-1) i0 j0) <-> (on_board n c /\ fst c + snd c = i0 + j0).
Proof.
  intros Hn Hi Hj Hb. split.
  - intros H. pose proof (walk_go _ _ _ _ _ _ H) as Hg. apply walk_spec in H. destruct H as (k & Hk & ->). cbn in *. apply andb_true_iff in Hg. unfold on_board. cbn. lia.
  - intros [[H1 H2] H3]. destruct c as [a b]. cbn in *. replace (a, b) with (i0 + (b - j0) * (-1), j0 + (b - j0)) by (f_equal; lia). apply walk_in; [lia|lia|]. intros. lia.
Qed.

(** At most one queen on each line [P]. *)
Definition at_most_one (n : Z) (q : board) (P : cell -> Prop) : Prop :=
  forall a b, on_board n a -> on_board n b -> P a -> P b -> q (fst a) (snd a) = true -> q (fst b) (snd b) = true -> a = b.
Lemma le1_iff n q l P : NoDup l -> (forall c, In c l <-> on_board n c /\ P c) -> (line_sum q l <= 1 <-> at_most_one n q P).
Proof.
  intros Hn Hl. rewrite (line_sum_le1 q l Hn). unfold at_most_one. split.
  - intros H a b Ha Hb Pa Pb. apply H; apply Hl; auto.
  - intros H a b Ha Hb. apply Hl in Ha, Hb. apply H; tauto.
Qed.

Lemma cell_eq (a b : cell) : fst a = fst b -> snd a = snd b -> a = b.
Proof. destruct a, b. cbn. congruence. Qed.

Theorem n_queens_ok n m q : n_queens n = Ok m -> (satisfies_model q m <-> n_queens_placement n q).
Proof.
  unfold n_queens. destruct (Z.ltb_spec n 3) as [|Hn]; [discriminate|]. intros H. inversion H; subst m. clear H.
  unfold satisfies_model, n_queens_body. cbn [qm_lines].
  assert (Hsplit : (forall l, In l (map (fun i => mk_qline (row_cells n i) true 1) (range 0 n) ++
     map (fun j => mk_qline (col_cells n j) true 1) (range 0 n) ++
     map (fun d => mk_qline (walk (Z.to_nat n) (fun i j => (i <? n) && (j <? n)) 1 d 0) false 1) (range 1 (n - 1)) ++
     map (fun d => mk_qline (walk (Z.to_nat n) (fun i j => (0 <=? i) && (j <? n)) 1 0 d) false 1) (range 0 (n - 1)) ++
     map (fun d => mk_qline (walk (Z.to_nat n) (fun i j => (0 <=? i) && (j <? n)) (-1) d 0) false 1) (range 1 n) ++
     map (fun d => mk_qline (walk (Z.to_nat n) (fun i j => (0 <=? i) && (j <? n)) (-1) (n - 1) d) false 1) (range 1 (n - 1))) -> satisfies_line q l) <->
    ((forall i, 0 <= i < n -> line_sum q (row_cells n i) = 1) /\ (forall j, 0 <= j < n -> line_sum q (col_cells n j) = 1) /\
     (forall d, 1 <= d < n - 1 -> at_most_one n q (fun c => fst c - snd c = d)) /\
     (forall d, 0 <= d < n - 1 -> at_most_one n q (fun c => snd c - fst c = d)) /\
     (forall d, 1 <= d < n -> at_most_one n q (fun c => fst c + snd c = d)) /\
     (forall d, 1 <= d < n - 1 -> at_most_one n q (fun c => fst c + snd c = n - 1 + d)))).
  { assert (Hm : forall (f : Z -> qline) a b (P : Z -> Prop), (forall d, a <= d < b -> (satisfies_line q (f d) <-> P d)) ->
      ((forall l, In l (map f (range a b)) -> satisfies_line q l) <-> forall d, a <= d < b -> P d)).
    { intros f a b P HP. split.
      - intros H d Hd. apply HP; [assumption|]. apply H. apply in_map. apply in_range. assumption.
      - intros H l Hl. apply in_map_iff in Hl. destruct Hl as (d & <- & Hd). apply in_range in Hd. apply HP; auto. }
    assert (Ha : forall (A B : list qline), (forall l, In l (A ++ B) -> satisfies_line q l) <-> (forall l, In l A -> satisfies_line q l) /\ (forall l, In l B -> satisfies_line q l)).
    { intros A B. split; [intros H; split; intros l Hl; apply H, in_app_iff; auto|]. intros [H1 H2] l Hl. apply in_app_iff in Hl. destruct Hl; auto. }
    rewrite !Ha.
    rewrite (Hm _ _ _ (fun i => line_sum q (row_cells n i) = 1)) by (intros; reflexivity).
    rewrite (Hm _ _ _ (fun i => line_sum q (col_cells n i) = 1)) by (intros; reflexivity).
    rewrite (Hm _ _ _ (fun d => at_most_one n q (fun c => fst c - snd c = d)))
      by (intros d Hd; unfold satisfies_line; cbn [ql_equal ql_cells ql_value]; apply le1_iff; [apply walk_nodup|]; intros c; apply below_walk; lia).
    rewrite (Hm _ _ _ (fun d => at_most_one n q (fun c => snd c - fst c = d)))
      by (intros d Hd; unfold satisfies_line; cbn [ql_equal ql_cells ql_value]; apply le1_iff; [apply walk_nodup|]; intros c; apply above_walk; lia).
    rewrite (Hm _ _ _ (fun d => at_most_one n q (fun c => fst c + snd c = d)))
      by (intros d Hd; unfold satisfies_line; cbn [ql_equal ql_cells ql_value]; apply le1_iff; [apply walk_nodup|]; intros c; rewrite anti_walk by lia; rewrite Z.add_0_r; reflexivity).
    rewrite (Hm _ _ _ (fun d => at_most_one n q (fun c => fst c + snd c = n - 1 + d)))
      by (intros d Hd; unfold satisfies_line; cbn [ql_equal ql_cells ql_value]; apply le1_iff; [apply walk_nodup|]; intros c; apply anti_walk; lia).
    reflexivity. }
  unfold row_cells, col_cells in Hsplit. rewrite Hsplit. clear Hsplit. fold (row_cells n). split.
  - intros (H1 & H2 & H3 & H4 & H5 & H6).
    assert (R : forall i, 0 <= i < n -> at_most_one n q (fun c => fst c = i)).
    { intros i Hi. apply (le1_iff n q (row_cells n i)); [apply row_nodup| |specialize (H1 i Hi); unfold row_cells; lia].
      intros c. rewrite in_row. unfold on_board. split; intros; lia. }
    assert (C : forall i, 0 <= i < n -> at_most_one n q (fun c => snd c = i)).
    { intros i Hi. apply (le1_iff n q (col_cells n i)); [apply col_nodup| |specialize (H2 i Hi); unfold col_cells; lia].
      intros c. rewrite in_col. unfold on_board. split; intros; lia. }
    split.
    + exists (filter (fun c => q (fst c) (snd c)) (all_rows n (range 0 n))). split.
      * split; [apply NoDup_filter, rows_nodup, range_nodup|]. intros c. rewrite filter_In, rows_all. reflexivity.
      * rewrite <- line_sum_filter. unfold all_rows. rewrite flat_sum; [rewrite range_length; lia|]. intros i Hi. apply in_range in Hi. apply H1. assumption.
    + intros a b Ha Hb Qa Qb Hab Hatt. apply Hab. destruct Hatt as [E|[E|[E|E]]].
      * apply (R (fst b)); auto. apply Hb.
      * apply (C (snd b)); auto. apply Hb.
      * unfold on_board in *. destruct (Z_lt_ge_dec 0 (fst b - snd b)) as [L|L].
        -- destruct (Z.eq_dec (fst b - snd b) (n - 1)) as [L2|L2]; [apply cell_eq; lia|]. apply (H3 (fst b - snd b)); auto; lia.
        -- destruct (Z.eq_dec (snd b - fst b) (n - 1)) as [L2|L2]; [apply cell_eq; lia|]. apply (H4 (snd b - fst b)); auto; lia.
      * unfold on_board in *. destruct (Z_lt_ge_dec (fst b + snd b) n) as [L|L].
        -- destruct (Z.eq_dec (fst b + snd b) 0) as [L2|L2]; [apply cell_eq; lia|]. apply (H5 (fst b + snd b)); auto; lia.
        -- destruct (Z.eq_dec (fst b + snd b) (2 * n - 2)) as [L2|L2]; [apply cell_eq; lia|]. apply (H6 (fst b + snd b - (n - 1))); auto; lia.
  - intros [(l & Hl & Hlen) Hna].
    assert (M : forall (P : cell -> Prop), (forall a b, P a -> P b -> attack a b) -> at_most_one n q P).
    { intros P HP a b Ha Hb Pa Pb Qa Qb. destruct (Z.eq_dec (fst a) (fst b)) as [E1|E1], (Z.eq_dec (snd a) (snd b)) as [E2|E2]; try (apply cell_eq; assumption);
        exfalso; apply (Hna a b Ha Hb Qa Qb); auto; intros ->; congruence. }
    split; [|split; [|repeat split; intros d _; apply M; unfold attack; intros; lia]].
    + intros i Hi. apply (proj2 (flat_sum_le q (row_cells n) (range 0 n) ltac:(
        intros j Hj; apply (le1_iff n q (row_cells n j) (fun c => fst c = j)); [apply row_nodup|intros c; rewrite in_row; unfold on_board; apply in_range in Hj; split; intros; lia|apply M; unfold attack; intros; lia]))).
      * fold (all_rows n (range 0 n)). rewrite (queens_sum n q l _ Hl (rows_nodup n _ (range_nodup 0 n)) (rows_all n)), range_length. lia.
      * apply in_range. assumption.
    + intros i Hi. apply (proj2 (flat_sum_le q (col_cells n) (range 0 n) ltac:(
        intros j Hj; apply (le1_iff n q (col_cells n j) (fun c => snd c = j)); [apply col_nodup|intros c; rewrite in_col; unfold on_board; apply in_range in Hj; split; intros; lia|apply M; unfold attack; intros; lia]))).
      * fold (all_cols n (range 0 n)). rewrite (queens_sum n q l _ Hl (cols_nodup n _ (range_nodup 0 n)) (cols_all n)), range_length. lia.
      * apply in_range. assumption.
Qed.
