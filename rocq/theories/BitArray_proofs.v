From Verif Require Import Base BitArray_model BitArray_spec.
Local Open Scope N_scope.

(** ** Words *)
Lemma wshl_spec a k i :
  N.testbit (wshl a k) i = (k <=? i) && N.testbit a (i - k) && (i <? 64).
Proof.
  unfold wshl, k_ones. rewrite N.land_spec.
  destruct (N.ltb_spec i 64) as [Hi|Hi].
  - rewrite N.ones_spec_low by assumption. rewrite !andb_true_r.
    destruct (N.leb_spec k i) as [Hk|Hk].
    + rewrite N.shiftl_spec_high'; [reflexivity|assumption].
    + rewrite N.shiftl_spec_low by assumption. reflexivity.
  - rewrite N.ones_spec_high by assumption. rewrite !andb_false_r. reflexivity.
Qed.

Lemma mask_spec k i : k < 64 -> N.testbit (wshl k_one k) i = (i =? k).
Proof.
  intros Hk. rewrite wshl_spec. unfold k_one.
  destruct (N.eqb_spec i k) as [->|Hne].
  - rewrite N.sub_diag. rewrite N.leb_refl. cbn. apply N.ltb_lt. assumption.
  - destruct (N.leb_spec k i) as [H|H]; [|reflexivity].
    cbn [andb]. replace (N.testbit 1 (i - k)) with false; [reflexivity|].
    destruct (i - k) eqn:E; [lia|]. reflexivity.
Qed.

Lemma land_mask_testbit w k :
  k < 64 -> negb (N.land w (wshl k_one k) =? 0) = N.testbit w k.
Proof.
  intros Hk. destruct (N.testbit w k) eqn:E.
  - destruct (N.eqb_spec (N.land w (wshl k_one k)) 0) as [H|H]; [|reflexivity].
    assert (Hb : N.testbit (N.land w (wshl k_one k)) k = true).
    { rewrite N.land_spec, mask_spec, E, N.eqb_refl by assumption. reflexivity. }
    rewrite H in Hb. rewrite N.bits_0 in Hb. discriminate.
  - replace (N.land w (wshl k_one k)) with 0; [reflexivity|].
    apply N.bits_inj. intros i. rewrite N.bits_0, N.land_spec, mask_spec by assumption.
    destruct (N.eqb_spec i k) as [->|]; [rewrite E; reflexivity|].
    symmetry; apply andb_false_r.
Qed.

Lemma b_offset_lt i : b_offset i < 64.
Proof. unfold b_offset, bit_per_block. pose proof (Nat.mod_upper_bound i 64). lia. Qed.

Lemma index_offset_inj i j :
  b_index i = b_index j -> b_offset i = b_offset j -> i = j.
Proof.
  unfold b_index, b_offset, bit_per_block. intros H1 H2.
  apply Nat2N.inj in H2.
  rewrite (Nat.div_mod i 64), (Nat.div_mod j 64) by lia. lia.
Qed.

(** ** Well-formed vectors *)
Definition wf (v : bits) : Prop :=
  length (b_blocks v) = Nat.add (Nat.div (b_size v) bit_per_block) 1.

Definition bit_at (v : bits) (i : nat) : bool :=
  match nth_error (b_blocks v) (b_index i) with
  | Some w => N.testbit w (b_offset i)
  | None => false
  end.

Lemma wf_new n : wf (bits_new n).
Proof. unfold wf, bits_new; cbn [b_blocks b_size]. rewrite repeat_length. reflexivity. Qed.

Lemma wf_index v i : wf v -> (i <= b_size v)%nat -> (b_index i < length (b_blocks v))%nat.
Proof.
  unfold wf, b_index, bit_per_block. intros -> Hi.
  pose proof (Nat.div_le_mono i (b_size v) 64). lia.
Qed.

Lemma get_bit_at v i : wf v -> (i < b_size v)%nat -> bits_get v i = Some (bit_at v i).
Proof.
  intros Hw Hi. unfold bits_get, in_range, bit_at.
  destruct (Nat.ltb_spec i (b_size v)); [|lia].
  pose proof (wf_index v i Hw ltac:(lia)) as Hb.
  destruct (nth_error (b_blocks v) (b_index i)) eqn:E.
  - cbn [bind]. rewrite land_mask_testbit by apply b_offset_lt. reflexivity.
  - apply nth_error_None in E. lia.
Qed.

Lemma get_out v i : (b_size v <= i)%nat -> bits_get v i = None.
Proof.
  intros H. unfold bits_get, in_range. destruct (Nat.ltb_spec i (b_size v)); [lia|reflexivity].
Qed.

(** The update of one block by a word function acting on one bit only. *)
Lemma update_spec v i f (g : bool -> bool) :
  wf v -> (i <= b_size v)%nat ->
  (forall w k, N.testbit (f w) k = if k =? b_offset i then g (N.testbit w k) else N.testbit w k) ->
  exists v', bits_update v i f = Some v' /\ wf v' /\ b_size v' = b_size v /\
             forall j, bit_at v' j = if Nat.eqb j i then g (bit_at v j) else bit_at v j.
Proof.
  intros Hw Hi Hf. unfold bits_update.
  destruct (list_modify_some (b_blocks v) (b_index i) f (wf_index _ _ Hw Hi))
    as (w & bl & Hn & _ & Hm).
  rewrite Hm. cbn. eexists; split; [reflexivity|].
  split; [|split; [reflexivity|]].
  { unfold wf in *; cbn. rewrite (list_modify_length _ _ _ _ Hm). assumption. }
  intros j. unfold bit_at; cbn [b_blocks].
  rewrite (list_modify_nth _ _ _ _ (b_index j) Hm).
  destruct (Nat.eqb_spec j i) as [->|Hne].
  - rewrite Nat.eqb_refl, Hn. cbn. rewrite Hf, N.eqb_refl. reflexivity.
  - destruct (Nat.eqb_spec (b_index j) (b_index i)) as [Hb|Hb]; [|reflexivity].
    rewrite Hb, Hn. cbn. rewrite Hf.
    destruct (N.eqb_spec (b_offset j) (b_offset i)) as [Ho|Ho]; [|reflexivity].
    exfalso; apply Hne, index_offset_inj; assumption.
Qed.

Lemma set_word w i k :
  N.testbit (N.lor w (wshl k_one (b_offset i))) k =
  if k =? b_offset i then true else N.testbit w k.
Proof.
  rewrite N.lor_spec, mask_spec by apply b_offset_lt.
  destruct (k =? b_offset i); [apply orb_true_r|apply orb_false_r].
Qed.

(** ** Every word stays below 2^64 (needed for complement). *)
Definition words_ok (v : bits) : Prop := Forall (fun w => forall k, 64 <= k -> N.testbit w k = false) (b_blocks v).

Lemma unset_word w i k :
  (forall k, 64 <= k -> N.testbit w k = false) ->
  N.testbit (N.land w (wnot (wshl k_one (b_offset i)))) k =
  if k =? b_offset i then false else N.testbit w k.
Proof.
  intros Hw. unfold wnot, k_ones. rewrite N.land_spec, N.lxor_spec, mask_spec by apply b_offset_lt.
  destruct (N.ltb_spec k 64) as [Hk|Hk].
  - rewrite N.ones_spec_low by assumption.
    destruct (k =? b_offset i); cbn; [apply andb_false_r|apply andb_true_r].
  - rewrite Hw by assumption. cbn. destruct (k =? b_offset i); reflexivity.
Qed.

Lemma invert_word w i k :
  N.testbit (N.lxor w (wshl k_one (b_offset i))) k =
  if k =? b_offset i then negb (N.testbit w k) else N.testbit w k.
Proof.
  rewrite N.lxor_spec, mask_spec by apply b_offset_lt.
  destruct (k =? b_offset i); [apply xorb_true_r|apply xorb_false_r].
Qed.

(** Same as [update_spec] with the word range known. *)
Lemma update_spec_ok v i f (g : bool -> bool) :
  wf v -> words_ok v -> (i <= b_size v)%nat ->
  (forall w k, (forall k, 64 <= k -> N.testbit w k = false) ->
     N.testbit (f w) k = if k =? b_offset i then g (N.testbit w k) else N.testbit w k) ->
  exists v', bits_update v i f = Some v' /\ wf v' /\ words_ok v' /\ b_size v' = b_size v /\
             forall j, bit_at v' j = if Nat.eqb j i then g (bit_at v j) else bit_at v j.
Proof.
  intros Hw Hok Hi Hf. unfold bits_update.
  destruct (list_modify_some (b_blocks v) (b_index i) f (wf_index _ _ Hw Hi))
    as (w & bl & Hn & _ & Hm).
  assert (Hwok : forall k, 64 <= k -> N.testbit w k = false).
  { unfold words_ok in Hok. rewrite Forall_forall in Hok. apply Hok.
    eapply nth_error_In; eassumption. }
  rewrite Hm. cbn. eexists; split; [reflexivity|].
  split; [|split; [|split; [reflexivity|]]].
  { unfold wf in *; cbn. rewrite (list_modify_length _ _ _ _ Hm). assumption. }
  { unfold words_ok in *; cbn. rewrite Forall_forall in *. intros z Hz k Hk.
    apply In_nth_error in Hz. destruct Hz as [j Hj].
    rewrite (list_modify_nth _ _ _ _ j Hm) in Hj.
    destruct (Nat.eqb_spec j (b_index i)) as [Hji|].
    - rewrite Hji, Hn in Hj. cbn in Hj. inversion Hj; subst z.
      rewrite Hf by assumption. pose proof (b_offset_lt i).
      destruct (N.eqb_spec k (b_offset i)); [lia|]. apply Hwok; assumption.
    - apply nth_error_In in Hj. eapply Hok; eassumption. }
  intros j. unfold bit_at; cbn [b_blocks].
  rewrite (list_modify_nth _ _ _ _ (b_index j) Hm).
  destruct (Nat.eqb_spec j i) as [->|Hne].
  - rewrite Nat.eqb_refl, Hn. cbn. rewrite Hf, N.eqb_refl by assumption. reflexivity.
  - destruct (Nat.eqb_spec (b_index j) (b_index i)) as [Hb|Hb]; [|reflexivity].
    rewrite Hb, Hn. cbn. rewrite Hf by assumption.
    destruct (N.eqb_spec (b_offset j) (b_offset i)) as [Ho|Ho]; [|reflexivity].
    exfalso; apply Hne, index_offset_inj; assumption.
Qed.

Definition ok (v : bits) : Prop := wf v /\ words_ok v.

Lemma set_spec v i : ok v -> (i < b_size v)%nat ->
  exists v', bits_set v i = Some v' /\ ok v' /\ b_size v' = b_size v /\
             forall j, bit_at v' j = if Nat.eqb j i then true else bit_at v j.
Proof.
  intros [Hw Hok] Hi. unfold bits_set, in_range.
  destruct (Nat.ltb_spec i (b_size v)); [|lia].
  destruct (update_spec_ok v i (fun w => N.lor w (wshl k_one (b_offset i))) (fun _ => true) Hw Hok ltac:(lia))
    as (v' & H1 & H2 & H3 & H4 & H5).
  - intros w k _. apply set_word.
  - exists v'. unfold ok. auto.
Qed.

Lemma unset_spec v i : ok v -> (i < b_size v)%nat ->
  exists v', bits_unset v i = Some v' /\ ok v' /\ b_size v' = b_size v /\
             forall j, bit_at v' j = if Nat.eqb j i then false else bit_at v j.
Proof.
  intros [Hw Hok] Hi. unfold bits_unset, in_range.
  destruct (Nat.ltb_spec i (b_size v)); [|lia].
  destruct (update_spec_ok v i (fun w => N.land w (wnot (wshl k_one (b_offset i)))) (fun _ => false) Hw Hok ltac:(lia))
    as (v' & H1 & H2 & H3 & H4 & H5).
  - intros w k Hk. apply unset_word; assumption.
  - exists v'. unfold ok. auto.
Qed.

Lemma invert_spec v i : ok v -> (i < b_size v)%nat ->
  exists v', bits_invert v i = Some v' /\ ok v' /\ b_size v' = b_size v /\
             forall j, bit_at v' j = if Nat.eqb j i then negb (bit_at v j) else bit_at v j.
Proof.
  intros [Hw Hok] Hi. unfold bits_invert, in_range.
  destruct (Nat.ltb_spec i (b_size v)); [|lia].
  destruct (update_spec_ok v i (fun w => N.lxor w (wshl k_one (b_offset i))) negb Hw Hok ltac:(lia))
    as (v' & H1 & H2 & H3 & H4 & H5).
  - intros w k _. apply invert_word.
  - exists v'. unfold ok. auto.
Qed.

Lemma ok_new n : ok (bits_new n).
Proof.
  split; [apply wf_new|]. unfold words_ok, bits_new; cbn [b_blocks].
  apply Forall_forall. intros w Hw k _. apply repeat_spec in Hw. subst. apply N.bits_0.
Qed.

Lemma ones_spec v : ok v -> ok (bits_ones v) /\ b_size (bits_ones v) = b_size v /\
  forall j, (j < b_size v)%nat -> bit_at (bits_ones v) j = true.
Proof.
  intros [Hw Hok]. unfold ok, wf, words_ok, bits_ones; cbn [b_blocks b_size].
  rewrite repeat_length. split; [split; [assumption|]|split; [reflexivity|]].
  - apply Forall_forall. intros w Hin k Hk. apply repeat_spec in Hin. subst.
    apply N.ones_spec_high; assumption.
  - intros j Hj. unfold bit_at; cbn [b_blocks]. rewrite nth_error_repeat.
    pose proof (wf_index v j Hw ltac:(lia)) as Hb.
    destruct (Nat.ltb_spec (b_index j) (length (b_blocks v))); [|lia].
    apply N.ones_spec_low, b_offset_lt.
Qed.

Lemma zeros_spec v : ok v -> ok (bits_zeros v) /\ b_size (bits_zeros v) = b_size v /\
  forall j, bit_at (bits_zeros v) j = false.
Proof.
  intros [Hw Hok]. unfold ok, wf, words_ok, bits_zeros; cbn [b_blocks b_size].
  rewrite repeat_length. split; [split; [assumption|]|split; [reflexivity|]].
  - apply Forall_forall. intros w Hin k Hk. apply repeat_spec in Hin. subst. apply N.bits_0.
  - intros j. unfold bit_at; cbn [b_blocks]. rewrite nth_error_repeat.
    destruct (Nat.ltb _ _); [apply N.bits_0|reflexivity].
Qed.

(** ** Refinement to lists of booleans *)
Definition abs (v : bits) (l : list bool) : Prop :=
  ok v /\ b_size v = length l /\
  forall i, (i < length l)%nat -> nth_error l i = Some (bit_at v i).

Lemma abs_get v l i : abs v l -> bits_get v i = nth_error l i.
Proof.
  intros ((Hw & Hok) & Hs & Hb).
  destruct (le_lt_dec (length l) i) as [Hi|Hi].
  - rewrite get_out by lia. symmetry. apply nth_error_None. assumption.
  - rewrite get_bit_at by (auto; lia). symmetry. auto.
Qed.

Lemma abs_new n : abs (bits_new n) (repeat false n).
Proof.
  split; [apply ok_new|]. rewrite repeat_length. split; [reflexivity|].
  intros i Hi. rewrite nth_error_repeat. destruct (Nat.ltb_spec i n); [|lia].
  f_equal. unfold bit_at, bits_new; cbn [b_blocks]. rewrite nth_error_repeat.
  destruct (Nat.ltb _ _); [rewrite N.bits_0|]; reflexivity.
Qed.

Lemma abs_upd v l i v' l' (b : bool) :
  abs v l -> ok v' -> b_size v' = b_size v ->
  (forall j, bit_at v' j = if Nat.eqb j i then b else bit_at v j) ->
  list_upd l i b = Some l' -> abs v' l'.
Proof.
  intros (Ho & Hs & Hb) Ho' Hs' Hb' Hl.
  pose proof (list_upd_length _ _ _ _ Hl) as Hlen.
  split; [assumption|]. split; [lia|].
  intros j Hj. rewrite (list_upd_nth _ _ _ _ j Hl), Hb'.
  destruct (Nat.eqb j i); [reflexivity|]. apply Hb. lia.
Qed.

Lemma step_refines v l o :
  abs v l ->
  match model_step v o, spec_step l o with
  | Some v', Some l' => abs v' l'
  | None, None => True
  | _, _ => False
  end.
Proof.
  intros Habs. pose proof Habs as (Ho & Hs & Hb).
  destruct o as [i|i|i| |]; cbn [model_step spec_step].
  - destruct (le_lt_dec (length l) i) as [Hi|Hi].
    + rewrite list_upd_none by assumption. unfold bits_set, in_range.
      destruct (Nat.ltb_spec i (b_size v)); [lia|exact I].
    + destruct (set_spec v i Ho ltac:(lia)) as (v' & -> & H1 & H2 & H3).
      destruct (list_upd_some l i true Hi) as [l' Hl]. rewrite Hl.
      eapply abs_upd; eassumption.
  - destruct (le_lt_dec (length l) i) as [Hi|Hi].
    + rewrite list_upd_none by assumption. unfold bits_unset, in_range.
      destruct (Nat.ltb_spec i (b_size v)); [lia|exact I].
    + destruct (unset_spec v i Ho ltac:(lia)) as (v' & -> & H1 & H2 & H3).
      destruct (list_upd_some l i false Hi) as [l' Hl]. rewrite Hl.
      eapply abs_upd; eassumption.
  - destruct (le_lt_dec (length l) i) as [Hi|Hi].
    + rewrite list_modify_none by assumption. unfold bits_invert, in_range.
      destruct (Nat.ltb_spec i (b_size v)); [lia|exact I].
    + destruct (invert_spec v i Ho ltac:(lia)) as (v' & -> & H1 & H2 & H3).
      destruct (list_modify_some l i negb Hi) as (a & l' & Hn & Hu & Hm). rewrite Hm.
      rewrite Hb in Hn by assumption. inversion Hn; subst a.
      eapply abs_upd; try eassumption.
      intros j. rewrite H3. destruct (Nat.eqb_spec j i) as [->|]; reflexivity.
  - destruct (ones_spec v Ho) as (H1 & H2 & H3).
    split; [assumption|]. rewrite map_length. split; [lia|].
    intros i Hi. rewrite nth_error_map', Hb, H3 by lia. reflexivity.
  - destruct (zeros_spec v Ho) as (H1 & H2 & H3).
    split; [assumption|]. rewrite map_length. split; [lia|].
    intros i Hi. rewrite nth_error_map', Hb, H3 by lia. reflexivity.
Qed.

Lemma run_refines v l ops :
  abs v l ->
  match model_run v ops, spec_run l ops with
  | Some v', Some l' => abs v' l'
  | None, None => True
  | _, _ => False
  end.
Proof.
  revert v l; induction ops as [|o ops IH]; intros v l H; cbn [model_run spec_run]; [exact H|].
  pose proof (step_refines v l o H) as Hs.
  destruct (model_step v o) as [v'|], (spec_step l o) as [l'|]; cbn [bind]; try contradiction; [|exact I].
  apply IH; assumption.
Qed.

Lemma run_observed n ops i :
  (do v <- model_run (bits_new n) ops; bits_get v i) =
  (do l <- spec_run (repeat false n) ops; nth_error l i).
Proof.
  pose proof (run_refines _ _ ops (abs_new n)) as H.
  destruct (model_run (bits_new n) ops) as [v|], (spec_run (repeat false n) ops) as [l|];
    cbn [bind]; try contradiction; [|reflexivity].
  apply abs_get; assumption.
Qed.

Lemma run_defined n ops :
  model_run (bits_new n) ops = None <-> spec_run (repeat false n) ops = None.
Proof.
  pose proof (run_refines _ _ ops (abs_new n)) as H.
  destruct (model_run (bits_new n) ops), (spec_run (repeat false n) ops);
    try contradiction; split; intro; try discriminate; reflexivity.
Qed.

(** bit_array::get and value_bit_array::get agree with bits_get within range. *)
Lemma bit_array_get_in v i : (i < b_size v)%nat -> bit_array_get v i = bits_get v i.
Proof.
  intros Hi. unfold bits_get, in_range. destruct (Nat.ltb_spec i (b_size v)); [|lia]. reflexivity.
Qed.

(** ** Equality *)
Definition pad_ok (v : bits) : Prop := forall i, (b_size v <= i)%nat -> bit_at v i = false.

Lemma copy_assign_eq v w : bits_copy_assign v w = w.
Proof.
  unfold bits_copy_assign. destruct w as [sz bl]; cbn [b_size b_blocks].
  destruct (Nat.eqb_spec (b_size v) sz) as [H1|H1];
  destruct (Nat.eqb_spec (length (b_blocks v)) (length bl)) as [H2|H2]; cbn [andb];
    rewrite ?H2, ?firstn_all, ?H1; reflexivity.
Qed.

(** crossover: block-wise description *)
Lemma crossover_blocks_spec x1 x2 r todo i x v :
  (i + todo = length (b_blocks x))%nat ->
  crossover_blocks x1 x2 r i todo x = Some v ->
  b_size v = b_size x /\ length (b_blocks v) = length (b_blocks x) /\
  forall k, nth_error (b_blocks v) k =
    if (Nat.leb i k && Nat.ltb k (length (b_blocks x)))%bool
    then (do w1 <- nth_error x1 k; do w2 <- nth_error x2 k;
          Some (N.lxor (N.land (N.lxor w1 w2) (r k)) w1))
    else nth_error (b_blocks x) k.
Proof.
  revert i x v; induction todo as [|todo IH]; intros i x v Hi H; cbn [crossover_blocks] in H.
  - inversion H; subst v. split; [reflexivity|split; [reflexivity|]].
    intros k. destruct (Nat.leb_spec i k), (Nat.ltb_spec k (length (b_blocks x))); cbn; try reflexivity. lia.
  - destruct (nth_error x1 i) as [w1|] eqn:E1; cbn [bind] in H; [|discriminate].
    destruct (nth_error x2 i) as [w2|] eqn:E2; cbn [bind] in H; [|discriminate].
    unfold bits_set_block in H.
    destruct (list_upd (b_blocks x) i _) as [bl|] eqn:Eu; cbn [bind] in H; [|discriminate].
    pose proof (list_upd_length _ _ _ _ Eu) as Hlen.
    apply IH in H; cbn [b_blocks b_size] in *; [|lia].
    destruct H as (H1 & H2 & H3). split; [assumption|split; [lia|]].
    intros k. rewrite H3, Hlen.
    destruct (Nat.leb_spec (S i) k) as [Ha|Ha], (Nat.leb_spec i k) as [Hb|Hb],
             (Nat.ltb_spec k (length (b_blocks x))) as [Hc|Hc]; cbn [andb]; try lia; try reflexivity.
    all: rewrite (list_upd_nth _ _ _ _ k Eu).
    + destruct (Nat.eqb_spec k i) as [->|]; [lia|reflexivity].
    + assert (k = i) by lia; subst k. rewrite Nat.eqb_refl, E1, E2. reflexivity.
    + destruct (Nat.eqb_spec k i) as [->|]; [lia|reflexivity].
Qed.

Lemma crossover_defined x a b r :
  ok x -> ok a -> ok b -> b_size a = b_size x -> b_size b = b_size x ->
  exists v, bits_crossover x a b r = Some v.
Proof.
  intros [Hx _] [Ha _] [Hb _] Hsa Hsb. unfold bits_crossover, wf in *.
  rewrite Hsa in Ha. rewrite Hsb in Hb.
  assert (Hla : length (b_blocks a) = length (b_blocks x)) by lia.
  assert (Hlb : length (b_blocks b) = length (b_blocks x)) by lia.
  clear Hsa Hsb Ha Hb Hx.
  assert (H : forall todo i y, (i + todo = length (b_blocks y))%nat ->
            length (b_blocks y) = length (b_blocks x) ->
            exists v, crossover_blocks (b_blocks a) (b_blocks b) r i todo y = Some v).
  { induction todo as [|todo IH]; intros i y Hi Hy; cbn [crossover_blocks]; [eauto|].
    destruct (nth_error (b_blocks a) i) as [w1|] eqn:E1; cbn [bind];
      [|apply nth_error_None in E1; lia].
    destruct (nth_error (b_blocks b) i) as [w2|] eqn:E2; cbn [bind];
      [|apply nth_error_None in E2; lia].
    unfold bits_set_block.
    destruct (list_upd_some (b_blocks y) i (N.lxor (N.land (N.lxor w1 w2) (r i)) w1) ltac:(lia)) as [bl Hbl].
    rewrite Hbl. cbn [bind]. pose proof (list_upd_length _ _ _ _ Hbl).
    apply IH; cbn; lia. }
  apply H; lia.
Qed.

Lemma crossover_bit x a b r v j :
  ok x -> ok a -> ok b -> b_size a = b_size x -> b_size b = b_size x ->
  bits_crossover x a b r = Some v ->
  b_size v = b_size x /\ ok v /\
  bit_at v j = if N.testbit (r (b_index j)) (b_offset j) then bit_at b j else bit_at a j.
Proof.
  intros [Hx Hxo] [Ha Hao] [Hb Hbo] Hsa Hsb H. unfold bits_crossover in H.
  apply crossover_blocks_spec in H; [|lia]. destruct H as (H1 & H2 & H3).
  assert (Hla : length (b_blocks a) = length (b_blocks x)) by (unfold wf in *; rewrite Hsa in Ha; lia).
  assert (Hlb : length (b_blocks b) = length (b_blocks x)) by (unfold wf in *; rewrite Hsb in Hb; lia).
  assert (Hword : forall k, nth_error (b_blocks v) k =
      do w1 <- nth_error (b_blocks a) k; do w2 <- nth_error (b_blocks b) k;
      Some (N.lxor (N.land (N.lxor w1 w2) (r k)) w1)).
  { intros k. rewrite H3. destruct (Nat.ltb_spec k (length (b_blocks x))); cbn [andb Nat.leb]; [reflexivity|].
    assert (nth_error (b_blocks x) k = None) by (apply nth_error_None; lia).
    assert (nth_error (b_blocks a) k = None) as -> by (apply nth_error_None; lia).
    assumption. }
  split; [assumption|split].
  - split; [unfold wf in *; rewrite H1, H2; assumption|].
    unfold words_ok in *. rewrite Forall_forall in *. intros w Hw k Hk.
    apply In_nth_error in Hw. destruct Hw as [m Hm]. rewrite Hword in Hm.
    destruct (nth_error (b_blocks a) m) as [w1|] eqn:E1; cbn in Hm; [|discriminate].
    destruct (nth_error (b_blocks b) m) as [w2|] eqn:E2; cbn in Hm; [|discriminate].
    inversion Hm; subst w. rewrite !N.lxor_spec, N.land_spec, N.lxor_spec.
    rewrite (Hao w1), (Hbo w2); [reflexivity| | | |];
      try assumption; eapply nth_error_In; eassumption.
  - unfold bit_at. rewrite Hword.
    destruct (nth_error (b_blocks a) (b_index j)) as [w1|] eqn:E1; cbn [bind];
      destruct (nth_error (b_blocks b) (b_index j)) as [w2|] eqn:E2; cbn [bind].
    + rewrite N.lxor_spec, N.land_spec, N.lxor_spec.
      destruct (N.testbit w1 _), (N.testbit w2 _), (N.testbit (r _) _); reflexivity.
    + apply nth_error_None in E2. assert (nth_error (b_blocks a) (b_index j) <> None) by congruence.
      apply nth_error_Some in H. lia.
    + apply nth_error_None in E1. assert (nth_error (b_blocks b) (b_index j) <> None) by congruence.
      apply nth_error_Some in H. lia.
    + destruct (N.testbit _ _); reflexivity.
Qed.

Lemma set_val_word w i k :
  N.testbit (N.lxor w (N.land (N.lxor (N.b2n false) w) (wshl k_one (b_offset i)))) k =
  if k =? b_offset i then false else N.testbit w k.
Proof.
  rewrite N.lxor_spec, N.land_spec, N.lxor_spec, mask_spec by apply b_offset_lt.
  cbn [N.b2n]. rewrite N.bits_0. rewrite xorb_false_l.
  destruct (k =? b_offset i).
  - rewrite andb_true_r. apply xorb_nilpotent.
  - rewrite andb_false_r. apply xorb_false_r.
Qed.
Lemma set_val_true_word w i k :
  N.testbit (N.lxor w (N.land (N.lxor (N.b2n true) w) (wshl k_one (b_offset i)))) k =
  if k =? b_offset i then (b_offset i =? 0) else N.testbit w k.
Proof.
  rewrite N.lxor_spec, N.land_spec, N.lxor_spec, mask_spec by apply b_offset_lt.
  cbn [N.b2n].
  destruct (N.eqb_spec k (b_offset i)) as [->|].
  - rewrite andb_true_r. destruct (N.eqb_spec (b_offset i) 0) as [->|Hne].
    + cbn. destruct (N.testbit w 0); reflexivity.
    + replace (N.testbit 1 (b_offset i)) with false.
      * rewrite xorb_false_l. apply xorb_nilpotent.
      * symmetry. destruct (b_offset i); [congruence|reflexivity].
  - rewrite andb_false_r. apply xorb_false_r.
Qed.

(** What set(i, v) really does: it stores v only when v is false or i is a multiple
    of 64, otherwise it stores false. *)
Lemma set_val_spec v i b : ok v -> (i < b_size v)%nat ->
  exists v', bits_set_val v i b = Some v' /\ ok v' /\ b_size v' = b_size v /\
    forall j, bit_at v' j = if Nat.eqb j i then (b && (b_offset i =? 0))%bool else bit_at v j.
Proof.
  intros [Hw Hok] Hi. unfold bits_set_val.
  destruct b.
  - destruct (update_spec_ok v i
      (fun w => N.lxor w (N.land (N.lxor (N.b2n true) w) (wshl k_one (b_offset i))))
      (fun _ => b_offset i =? 0) Hw Hok ltac:(lia)) as (v' & H1 & H2 & H3 & H4 & H5).
    + intros w k _. apply set_val_true_word.
    + exists v'. unfold ok. auto.
  - destruct (update_spec_ok v i
      (fun w => N.lxor w (N.land (N.lxor (N.b2n false) w) (wshl k_one (b_offset i))))
      (fun _ => false) Hw Hok ltac:(lia)) as (v' & H1 & H2 & H3 & H4 & H5).
    + intros w k _. apply set_val_word.
    + exists v'. unfold ok. auto.
Qed.

Lemma copy_blocks_nth d s f t k :
  (f <= t)%nat -> (t <= length d)%nat -> length s = length d ->
  nth_error (copy_blocks d s f t) k =
  if (Nat.leb f k && Nat.ltb k t)%bool then nth_error s k else nth_error d k.
Proof.
  intros H1 H2 H3. unfold copy_blocks.
  assert (L1 : length (firstn f d) = f) by (rewrite firstn_length; lia).
  assert (L2 : length (firstn (t - f) (skipn f s)) = (t - f)%nat)
    by (rewrite firstn_length, skipn_length; lia).
  assert (FN : forall {A} (l : list A) m j, (j < m)%nat -> nth_error (firstn m l) j = nth_error l j).
  { intros A l; induction l as [|x l IH]; intros [|m] [|j] Hj; cbn; try lia; try reflexivity.
    apply IH; lia. }
  assert (SN : forall {A} (l : list A) m j, nth_error (skipn m l) j = nth_error l (m + j)).
  { intros A l; induction l as [|x l IH]; intros [|m] j; cbn; try reflexivity.
    - destruct j; reflexivity.
    - apply IH. }
  destruct (Nat.leb_spec f k) as [Hf|Hf]; cbn [andb].
  - rewrite nth_error_app2 by lia. rewrite L1.
    destruct (Nat.ltb_spec k t) as [Ht|Ht].
    + rewrite nth_error_app1 by lia. rewrite FN by lia. rewrite SN. f_equal; lia.
    + rewrite nth_error_app2 by lia. rewrite L2, SN. f_equal; lia.
  - rewrite nth_error_app1 by lia. apply FN; assumption.
Qed.


(** assign only ever combines bits of the two vectors at the same position *)
Definition mix (da db d : list N) : Prop :=
  length d = length da /\
  forall i w k, nth_error d i = Some w -> N.testbit w k = true ->
    (exists wa, nth_error da i = Some wa /\ N.testbit wa k = true) \/
    (exists wb, nth_error db i = Some wb /\ N.testbit wb k = true).

Lemma mix_upd da db d i w d' :
  mix da db d -> list_upd d i w = Some d' ->
  (forall k, N.testbit w k = true ->
    (exists wa, nth_error d i = Some wa /\ N.testbit wa k = true) \/
    (exists wb, nth_error db i = Some wb /\ N.testbit wb k = true)) ->
  mix da db d'.
Proof.
  intros [Hl Hm] Hu Hw. split; [rewrite (list_upd_length _ _ _ _ Hu); assumption|].
  intros j z k Hj Hz. rewrite (list_upd_nth _ _ _ _ j Hu) in Hj.
  destruct (Nat.eqb_spec j i) as [Hji|Hji]; [|eauto].
  subst j. inversion Hj; subst z. destruct (Hw k Hz) as [(wa & H1 & H2)|H]; [eauto|auto].
Qed.

Lemma mask_hi o off k : N.testbit (wshl (wshr o (64 - off)) (64 - off)) k = true -> N.testbit o k = true.
Proof.
  rewrite wshl_spec. unfold wshr. rewrite N.shiftr_spec'. intros H.
  apply andb_true_iff in H. destruct H as [H _]. apply andb_true_iff in H. destruct H as [H1 H2].
  apply N.leb_le in H1. replace (k - (64 - off) + (64 - off)) with k in H2 by lia. assumption.
Qed.
Lemma mask_lo n off k : N.testbit (wshr (wshl n off) off) k = true -> N.testbit n k = true.
Proof.
  unfold wshr. rewrite N.shiftr_spec', wshl_spec. intros H.
  apply andb_true_iff in H. destruct H as [H _]. apply andb_true_iff in H. destruct H as [H1 H2].
  replace (k + off - off) with k in H2 by lia. assumption.
Qed.

Lemma copy_blocks_mix da db d f t :
  mix da db d -> (f <= t)%nat -> (t <= length da)%nat -> length db = length da ->
  mix da db (copy_blocks d db f t).
Proof.
  intros [Hl Hm] H1 H2 H3. split.
  - unfold copy_blocks. rewrite !app_length, !firstn_length, !skipn_length. lia.
  - intros i w k Hi Hw. rewrite copy_blocks_nth in Hi by lia.
    destruct (Nat.leb f i && Nat.ltb i t)%bool; eauto.
Qed.

Lemma assign_mix a b from to v :
  wf a -> wf b -> bits_assign a b from to = Some v ->
  b_size v = b_size a /\ b_size b = b_size a /\ mix (b_blocks a) (b_blocks b) (b_blocks v).
Proof.
  intros Ha Hb. unfold bits_assign.
  destruct (Nat.eqb_spec (b_size b) (b_size a)) as [Hs|]; [|discriminate].
  destruct (Nat.ltb_spec from to) as [H1|]; [|discriminate].
  destruct (Nat.ltb_spec from (b_size a)) as [H2|]; [|discriminate].
  destruct (Nat.leb_spec to (b_size a)) as [H3|]; [|discriminate].
  cbn [andb]. intros H.
  assert (M0 : mix (b_blocks a) (b_blocks b) (b_blocks a)) by (split; [reflexivity|eauto]).
  assert (Hlen : length (b_blocks b) = length (b_blocks a)) by (unfold wf in *; rewrite Hs in Hb; lia).
  match type of H with bind ?e _ = _ => destruct e as [[d1 lmin]|] eqn:E1; [|discriminate] end.
  cbn [bind] in H.
  assert (M1 : mix (b_blocks a) (b_blocks b) d1).
  { destruct (0 <? b_offset from).
    - destruct (nth_error (b_blocks a) (b_index from)) as [o|] eqn:Eo; [|discriminate].
      destruct (nth_error (b_blocks b) (b_index from)) as [n|] eqn:En; [|discriminate].
      cbn [bind] in E1.
      match type of E1 with bind ?e _ = _ => destruct e as [d|] eqn:Eu; [|discriminate] end.
      cbn [bind] in E1. inversion E1; subst d lmin. eapply mix_upd; [exact M0|exact Eu|].
      intros k Hk. rewrite N.lor_spec in Hk. apply orb_true_iff in Hk. destruct Hk as [Hk|Hk].
      + right. exists n. split; [exact En|]. eapply mask_lo; eassumption.
      + left. exists o. split; [exact Eo|]. eapply mask_hi; eassumption.
    - inversion E1; subst d1; exact M0. }
  match type of H with bind ?e _ = _ => destruct e as [[d2 lmax]|] eqn:E2; [|discriminate] end.
  cbn [bind] in H.
  assert (M2 : mix (b_blocks a) (b_blocks b) d2 /\ (lmax <= Z.of_nat (b_index to))%Z).
  { destruct (0 <? b_offset to).
    - destruct (nth_error d1 (b_index to)) as [o|] eqn:Eo; [|discriminate].
      destruct (nth_error (b_blocks b) (b_index to)) as [n|] eqn:En; [|discriminate].
      cbn [bind] in E2.
      match type of E2 with bind ?e _ = _ => destruct e as [d|] eqn:Eu; [|discriminate] end.
      cbn [bind] in E2. inversion E2; subst d lmax. split; [|lia]. eapply mix_upd; [exact M1|exact Eu|].
      intros k Hk. rewrite N.lor_spec in Hk. apply orb_true_iff in Hk. destruct Hk as [Hk|Hk].
      + right. exists n. split; [exact En|]. eapply mask_hi; eassumption.
      + left. exists o. split; [exact Eo|]. eapply mask_lo; eassumption.
    - inversion E2; subst d2 lmax; split; [exact M1|lia]. }
  destruct M2 as [M2 Hmax]. inversion H; subst v; cbn [b_size b_blocks].
  split; [reflexivity|]. split; [assumption|].
  destruct (Z.ltb_spec (Z.of_nat lmin) lmax); [|exact M2].
  apply copy_blocks_mix; try assumption; [lia|].
  pose proof (wf_index a to Ha H3). lia.
Qed.

Lemma assign_ok a b from to v :
  ok a -> ok b -> pad_ok a -> pad_ok b -> bits_assign a b from to = Some v ->
  ok v /\ b_size v = b_size a /\ pad_ok v.
Proof.
  intros [Ha Hao] [Hb Hbo] Hpa Hpb H.
  destruct (assign_mix a b from to v Ha Hb H) as (Hs & Hsb & Hl & Hm).
  split; [split|split; [assumption|]].
  - unfold wf in *. rewrite Hl, Hs. assumption.
  - unfold words_ok in *. rewrite Forall_forall in *. intros w Hw k Hk.
    apply In_nth_error in Hw. destruct Hw as [i Hi].
    destruct (N.testbit w k) eqn:E; [|reflexivity].
    destruct (Hm i w k Hi E) as [(z & H1 & H2)|(z & H1 & H2)]; apply nth_error_In in H1.
    + rewrite (Hao z H1 k Hk) in H2. discriminate.
    + rewrite (Hbo z H1 k Hk) in H2. discriminate.
  - intros i Hi. unfold bit_at.
    destruct (nth_error (b_blocks v) (b_index i)) as [w|] eqn:E; [|reflexivity].
    destruct (N.testbit w (b_offset i)) eqn:Et; [|reflexivity].
    destruct (Hm _ w _ E Et) as [(z & H1 & H2)|(z & H1 & H2)].
    + specialize (Hpa i ltac:(lia)). unfold bit_at in Hpa. rewrite H1 in Hpa. congruence.
    + specialize (Hpb i ltac:(lia)). unfold bit_at in Hpb. rewrite H1 in Hpb. congruence.
Qed.

Lemma bits_set_dom v i v' : bits_set v i = Some v' -> (i < b_size v)%nat.
Proof. unfold bits_set, in_range. destruct (Nat.ltb_spec i (b_size v)); [auto|discriminate]. Qed.
Lemma bits_unset_dom v i v' : bits_unset v i = Some v' -> (i < b_size v)%nat.
Proof. unfold bits_unset, in_range. destruct (Nat.ltb_spec i (b_size v)); [auto|discriminate]. Qed.
Lemma bits_invert_dom v i v' : bits_invert v i = Some v' -> (i < b_size v)%nat.
Proof. unfold bits_invert, in_range. destruct (Nat.ltb_spec i (b_size v)); [auto|discriminate]. Qed.

Lemma reach_inv n v : reach n v -> ok v /\ b_size v = n /\ pad_ok v.
Proof.
  induction 1 as [n|n v i v' H (Ho & Hs & Hp) Hop|n v i v' H (Ho & Hs & Hp) Hop
                 |n v i v' H (Ho & Hs & Hp) Hop|n v H (Ho & Hs & Hp)
                 |n m v w H1 (Ho & Hs & Hp) H2 (Ho2 & Hs2 & Hp2)
                 |n x a b r v H1 (Ho1 & Hs1 & Hp1) H2 (Ho2 & Hs2 & Hp2) H3 (Ho3 & Hs3 & Hp3) Hop
                 |n v i b v' H (Ho & Hs & Hp) Hd Hop
                 |n a b from to v H1 (Ho1 & Hs1 & Hp1) H2 (Ho2 & Hs2 & Hp2) Hop].
  - split; [apply ok_new|split; [reflexivity|]]. intros i _.
    unfold bit_at, bits_new; cbn [b_blocks]. rewrite nth_error_repeat.
    destruct (Nat.ltb _ _); [apply N.bits_0|reflexivity].
  - pose proof (bits_set_dom _ _ _ Hop) as Hd.
    destruct (set_spec v i Ho Hd) as (v2 & E & H1 & H2 & H3). rewrite Hop in E. inversion E; subst v2.
    split; [assumption|split; [lia|]]. intros j Hj. rewrite H3.
    destruct (Nat.eqb_spec j i); [lia|]. apply Hp. lia.
  - pose proof (bits_unset_dom _ _ _ Hop) as Hd.
    destruct (unset_spec v i Ho Hd) as (v2 & E & H1 & H2 & H3). rewrite Hop in E. inversion E; subst v2.
    split; [assumption|split; [lia|]]. intros j Hj. rewrite H3.
    destruct (Nat.eqb_spec j i); [lia|]. apply Hp. lia.
  - pose proof (bits_invert_dom _ _ _ Hop) as Hd.
    destruct (invert_spec v i Ho Hd) as (v2 & E & H1 & H2 & H3). rewrite Hop in E. inversion E; subst v2.
    split; [assumption|split; [lia|]]. intros j Hj. rewrite H3.
    destruct (Nat.eqb_spec j i); [lia|]. apply Hp. lia.
  - destruct (zeros_spec v Ho) as (H1 & H2 & H3). split; [assumption|split; [lia|]].
    intros j _. apply H3.
  - rewrite copy_assign_eq. auto.
  - destruct (crossover_bit x a b r v 0 Ho1 Ho2 Ho3 ltac:(lia) ltac:(lia) Hop) as (Hsz & Hok & _).
    split; [assumption|split; [lia|]]. intros j Hj.
    destruct (crossover_bit x a b r v j Ho1 Ho2 Ho3 ltac:(lia) ltac:(lia) Hop) as (_ & _ & ->).
    rewrite Hp2, Hp3 by lia. destruct (N.testbit _ _); reflexivity.
  - destruct (set_val_spec v i b Ho ltac:(lia)) as (v2 & E & H1 & H2 & H3). rewrite Hop in E. inversion E; subst v2.
    split; [assumption|split; [lia|]]. intros j Hj. rewrite H3.
    destruct (Nat.eqb_spec j i); [lia|]. apply Hp. lia.
  - destruct (assign_ok a b from to v Ho1 Ho2 Hp1 Hp2 Hop) as (Ha & Hb & Hc).
    split; [assumption|split; [lia|assumption]].
Qed.

Lemma blocks_eqb_spec a b :
  length a = length b -> exists e, blocks_eqb a b = Some e /\ (e = true <-> a = b).
Proof.
  revert b; induction a as [|x a IH]; intros [|y b] H; cbn in *; try discriminate.
  - exists true. split; [reflexivity|]. split; reflexivity.
  - destruct (N.eqb_spec y x) as [->|Hne].
    + destruct (IH b ltac:(lia)) as (e & -> & He). exists e. split; [reflexivity|].
      rewrite He. split; [intros ->; reflexivity|intros E; inversion E; reflexivity].
    + exists false. split; [reflexivity|]. split; [discriminate|]. intros E; inversion E; congruence.
Qed.

Lemma bit_at_ext_blocks a b :
  ok a -> ok b -> length (b_blocks a) = length (b_blocks b) ->
  (forall i, bit_at a i = bit_at b i) -> b_blocks a = b_blocks b.
Proof.
  intros [Ha Hao] [Hb Hbo] Hl H. apply nth_error_ext. intros i.
  destruct (nth_error (b_blocks a) i) as [w1|] eqn:E1.
  - destruct (nth_error (b_blocks b) i) as [w2|] eqn:E2.
    + f_equal. apply N.bits_inj. intros k.
      destruct (N.ltb_spec k 64) as [Hk|Hk].
      * specialize (H (i * 64 + N.to_nat k)%nat). unfold bit_at in H.
        assert (Hi : b_index (i * 64 + N.to_nat k) = i).
        { unfold b_index, bit_per_block. rewrite Nat.div_add_l by lia.
          rewrite Nat.div_small by lia. lia. }
        assert (Ho : b_offset (i * 64 + N.to_nat k) = k).
        { unfold b_offset, bit_per_block. rewrite Nat.add_comm, Nat.mod_add by lia.
          rewrite Nat.mod_small by lia. lia. }
        rewrite Hi, Ho, E1, E2 in H. exact H.
      * unfold words_ok in *. rewrite Forall_forall in *.
        rewrite (Hao w1), (Hbo w2); [reflexivity| | | |];
          try assumption; eapply nth_error_In; eassumption.
    + apply nth_error_None in E2. assert (nth_error (b_blocks a) i <> None) by congruence.
      apply nth_error_Some in H0. lia.
  - symmetry. apply nth_error_None. apply nth_error_None in E1. lia.
Qed.

Lemma eq_exact n a b :
  reach n a -> reach n b ->
  exists e, bits_eq a b = Some e /\
    (e = true <-> forall i, (i < n)%nat -> bits_get a i = bits_get b i) /\
    bits_neq a b = Some (negb e).
Proof.
  intros Ra Rb.
  apply reach_inv in Ra; apply reach_inv in Rb.
  destruct Ra as (Ha & Hsa & Hpa), Rb as (Hb & Hsb & Hpb).
  assert (Hl : length (b_blocks a) = length (b_blocks b)).
  { destruct Ha as [Ha _], Hb as [Hb _]. unfold wf in *. rewrite Hsa in Ha. rewrite Hsb in Hb. lia. }
  destruct (blocks_eqb_spec _ _ Hl) as (e & He & Hiff).
  exists e. unfold bits_eq, bits_neq. rewrite Hsa, Hsb, Nat.eqb_refl, He. cbn.
  split; [reflexivity|]. split; [|reflexivity].
  rewrite Hiff. split.
  - intros E i Hi. unfold bits_get, in_range. rewrite Hsa, Hsb, E. reflexivity.
  - intros E. apply bit_at_ext_blocks; try assumption. intros i.
    destruct (le_lt_dec n i) as [Hi|Hi].
    + rewrite Hpa, Hpb by lia. reflexivity.
    + specialize (E i Hi). destruct Ha as [Ha _], Hb as [Hb _].
      rewrite !get_bit_at in E by (auto; lia). congruence.
Qed.

Lemma eq_hash h a b :
  bits_eq a b = Some true -> length (b_blocks a) = length (b_blocks b) ->
  bits_hash h a = bits_hash h b.
Proof.
  unfold bits_eq, bits_hash. intros H Hl.
  destruct (Nat.eqb (b_size a) (b_size b)); [|discriminate].
  destruct (blocks_eqb_spec _ _ Hl) as (e & He & Hiff). rewrite He in H. inversion H; subst e.
  destruct Hiff as [Hiff _]. rewrite Hiff by reflexivity. reflexivity.
Qed.

(** ** Crossover, observed through get *)
Lemma crossover_get n x a b r :
  reach n x -> reach n a -> reach n b ->
  exists v, bits_crossover x a b r = Some v /\ b_size v = n /\
    forall i, (i < n)%nat ->
      bits_get v i = if N.testbit (r (b_index i)) (b_offset i) then bits_get b i else bits_get a i.
Proof.
  intros Rx Ra Rb. apply reach_inv in Rx, Ra, Rb.
  destruct Rx as (Hx & Hsx & _), Ra as (Ha & Hsa & _), Rb as (Hb & Hsb & _).
  destruct (crossover_defined x a b r Hx Ha Hb ltac:(lia) ltac:(lia)) as [v Hv].
  exists v. split; [assumption|].
  destruct (crossover_bit x a b r v 0 Hx Ha Hb ltac:(lia) ltac:(lia) Hv) as (Hs & Hok & _).
  split; [lia|]. intros i Hi.
  destruct (crossover_bit x a b r v i Hx Ha Hb ltac:(lia) ltac:(lia) Hv) as (_ & _ & Hbit).
  destruct Hok as [Hok _], Ha as [Ha _], Hb as [Hb _].
  rewrite !get_bit_at by (auto; lia). rewrite Hbit. destruct (N.testbit _ _); reflexivity.
Qed.

(** ** set(i, v) *)
Lemma set_val_get n v i b : reach n v -> (i < n)%nat ->
  exists v', bits_set_val v i b = Some v' /\ b_size v' = n /\
    bits_get v' i = Some (b && Nat.eqb (i mod 64) 0)%bool /\
    forall j, j <> i -> bits_get v' j = bits_get v j.
Proof.
  intros R Hi. apply reach_inv in R. destruct R as (Hok & Hs & _).
  destruct (set_val_spec v i b Hok ltac:(lia)) as (v' & H1 & H2 & H3 & H4).
  exists v'. split; [assumption|]. split; [lia|]. destruct H2 as [H2 _], Hok as [Hok _]. split.
  - rewrite get_bit_at by (auto; lia). rewrite H4, Nat.eqb_refl. do 2 f_equal.
    unfold b_offset, bit_per_block.
    destruct (N.eqb_spec (N.of_nat (i mod 64)) 0), (Nat.eqb_spec (i mod 64) 0); try reflexivity; lia.
  - intros j Hj. destruct (le_lt_dec n j) as [Hl|Hl].
    + rewrite !get_out by lia. reflexivity.
    + rewrite !get_bit_at by (auto; lia). rewrite H4.
      destruct (Nat.eqb_spec j i); [lia|reflexivity].
Qed.

(** ** assign on block-aligned ranges *)
Lemma b_offset_mult k : b_offset (k * 64) = 0.
Proof. unfold b_offset, bit_per_block. rewrite Nat.mod_mul by lia. reflexivity. Qed.
Lemma b_index_mult k : b_index (k * 64) = k.
Proof. unfold b_index, bit_per_block. apply Nat.div_mul. lia. Qed.

Lemma assign_aligned n a b kf kt :
  reach n a -> reach n b -> (kf < kt)%nat -> (kt * 64 <= n)%nat ->
  exists v, bits_assign a b (kf * 64) (kt * 64) = Some v /\
    forall i, bits_get v i =
      if (Nat.leb (kf * 64) i && Nat.ltb i (kt * 64))%bool then bits_get b i else bits_get a i.
Proof.
  intros Ra Rb Hk Hn. apply reach_inv in Ra, Rb.
  destruct Ra as (Ha & Hsa & _), Rb as (Hb & Hsb & _).
  unfold bits_assign. rewrite Hsa, Hsb, Nat.eqb_refl.
  destruct (Nat.ltb_spec (kf * 64) (kt * 64)); [|lia].
  destruct (Nat.ltb_spec (kf * 64) n); [|lia].
  destruct (Nat.leb_spec (kt * 64) n); [|lia].
  cbn [andb]. rewrite !b_offset_mult, !b_index_mult. cbn [N.ltb N.compare bind].
  destruct (Z.ltb_spec (Z.of_nat kf) (Z.of_nat kt)); [|lia].
  rewrite Nat2Z.id.
  eexists. split; [reflexivity|]. intros i.
  destruct Ha as [Ha _], Hb as [Hb _].
  assert (Hla : length (b_blocks a) = Nat.add (n / 64) 1) by (unfold wf, bit_per_block in Ha; rewrite Hsa in Ha; assumption).
  assert (Hlb : length (b_blocks b) = Nat.add (n / 64) 1) by (unfold wf, bit_per_block in Hb; rewrite Hsb in Hb; assumption).
  assert (Hkt : (kt <= n / 64)%nat).
  { apply Nat.div_le_lower_bound; lia. }
  unfold bits_get, in_range; cbn [b_size b_blocks]. rewrite Hsa, Hsb.
  rewrite copy_blocks_nth by lia.
  assert (Hkeq : (Nat.leb kf (b_index i) && Nat.ltb (b_index i) kt)%bool =
                 (Nat.leb (kf * 64) i && Nat.ltb i (kt * 64))%bool).
  { unfold b_index, bit_per_block. pose proof (Nat.div_mod i 64 ltac:(lia)) as Hdm.
    pose proof (Nat.mod_upper_bound i 64 ltac:(lia)).
    destruct (Nat.leb_spec kf (i / 64)), (Nat.leb_spec (kf * 64) i),
      (Nat.ltb_spec (i / 64) kt), (Nat.ltb_spec i (kt * 64)); cbn; try reflexivity; nia. }
  rewrite Hkeq.
  destruct (Nat.ltb i n); destruct (Nat.leb (kf * 64) i && Nat.ltb i (kt * 64))%bool; reflexivity.
Qed.

(** ** Forms used in the property file *)
Lemma value_get_spec a b v i x :
  bits_get v i = Some x -> value_bit_array_get a b v i = Some (if x then b else a).
Proof.
  unfold bits_get, in_range, value_bit_array_get. destruct (Nat.ltb_spec i (b_size v)); [|discriminate].
  fold (bit_array_get v i). intros ->. reflexivity.
Qed.

Lemma eq_hash_exact n a b : reach n a -> reach n b ->
  exists e, bits_eq a b = Some e /\ bits_neq a b = Some (negb e) /\
    (e = true <-> forall i, (i < n)%nat -> bits_get a i = bits_get b i) /\
    (e = true -> forall h, bits_hash h a = bits_hash h b).
Proof.
  intros Ra Rb. destruct (eq_exact n a b Ra Rb) as (e & H1 & H2 & H3).
  exists e. repeat split; try assumption; try apply H2.
  intros -> h. apply eq_hash; [assumption|].
  apply reach_inv in Ra, Rb. destruct Ra as ((Ha & _) & Hsa & _), Rb as ((Hb & _) & Hsb & _).
  unfold wf in *. rewrite Hsa in Ha. rewrite Hsb in Hb. lia.
Qed.

Lemma C02_nonvacuous_lemma : exists a b, reach 65 a /\ reach 65 b /\
  bits_eq a b = Some true /\ bits_get a 64 = Some true.
Proof.
  exists (mk_bits 65 [0; 1]), (mk_bits 65 [0; 1]).
  assert (H : reach 65 (mk_bits 65 [0; 1])).
  { eapply R_set with (v := bits_new 65) (i := 64%nat); [constructor|vm_compute; reflexivity]. }
  split; [exact H|]. split; [exact H|]. vm_compute. auto.
Qed.

Lemma C02_refuted_lemma : exists n ops1 ops2 a b,
  model_run (bits_new n) ops1 = Some a /\ model_run (bits_new n) ops2 = Some b /\
  (forall i, (i < n)%nat -> bits_get a i = bits_get b i) /\ bits_eq a b = Some false.
Proof.
  exists 1%nat, [OOnes], [OSet 0], (bits_ones (bits_new 1)), (mk_bits 1 [1]).
  split; [reflexivity|]. split; [vm_compute; reflexivity|]. split; [|vm_compute; reflexivity].
  intros i Hi. assert (i = 0)%nat by lia. subst i. vm_compute. reflexivity.
Qed.

Lemma set_val_get_short n v i b : reach n v -> (i < n)%nat ->
  exists v', bits_set_val v i b = Some v' /\
    bits_get v' i = Some (b && Nat.eqb (i mod 64) 0)%bool /\
    forall j, j <> i -> bits_get v' j = bits_get v j.
Proof.
  intros R Hi. destruct (set_val_get n v i b R Hi) as (v' & H1 & _ & H2 & H3). eauto.
Qed.

Lemma C03_refuted_lemma : exists n v i v',
  reach n v /\ (i < n)%nat /\ bits_set_val v i true = Some v' /\ bits_get v' i = Some false.
Proof.
  exists 2%nat, (bits_new 2), 1%nat, (bits_new 2).
  split; [constructor|]. split; [lia|]. vm_compute. auto.
Qed.

Lemma C04_refuted_lemma : exists n a b from to v i,
  reach n a /\ reach n b /\ (from < to)%nat /\ (to <= n)%nat /\ (i < n)%nat /\ (i < from \/ to <= i)%nat /\
  bits_assign a b from to = Some v /\ bits_get v i <> bits_get a i.
Proof.
  exists 4%nat, (bits_new 4), (mk_bits 4 [1]), 1%nat, 2%nat, (mk_bits 4 [1]), 0%nat.
  split; [constructor|]. split.
  { eapply R_set with (v := bits_new 4) (i := 0%nat); [constructor|vm_compute; reflexivity]. }
  do 4 (split; [lia|]). split; [vm_compute; reflexivity|]. vm_compute. discriminate.
Qed.

Lemma C04_refuted_lemma2 : exists n a b from to v i,
  reach n a /\ reach n b /\ (from < to)%nat /\ (to <= n)%nat /\ (from <= i < to)%nat /\
  bits_assign a b from to = Some v /\ bits_get v i <> bits_get b i.
Proof.
  exists 4%nat, (bits_new 4), (mk_bits 4 [1]), 0%nat, 2%nat, (mk_bits 4 [0]), 0%nat.
  split; [constructor|]. split.
  { eapply R_set with (v := bits_new 4) (i := 0%nat); [constructor|vm_compute; reflexivity]. }
  do 3 (split; [lia|]). split; [vm_compute; reflexivity|]. vm_compute. discriminate.
Qed.

Lemma crossover_full n x a b r :
  reach n x -> reach n a -> reach n b ->
  exists child, bits_crossover x a b r = Some child /\
    (forall i, (i < n)%nat -> bits_get child i =
       if N.testbit (r (i / 64)%nat) (N.of_nat (i mod 64)) then bits_get b i else bits_get a i) /\
    (forall i, (i < n)%nat -> bits_get a i = bits_get b i -> bits_get child i = bits_get a i).
Proof.
  intros Rx Ra Rb. destruct (crossover_get n x a b r Rx Ra Rb) as (v & H1 & _ & H3).
  exists v. split; [assumption|]. split; [exact H3|].
  intros i Hi E. rewrite H3 by assumption. rewrite E. destruct (N.testbit _ _); reflexivity.
Qed.

Lemma C05_nonvacuous_lemma : exists a, reach 3 (bits_new 3) /\ reach 3 a /\
  (do c <- bits_crossover (bits_new 3) (bits_new 3) a (fun _ => 4%N);
   Some (bits_get c 0, bits_get c 2)) = Some (Some false, Some true).
Proof.
  exists (mk_bits 3 [4]). split; [constructor|]. split.
  { eapply R_set with (v := bits_new 3) (i := 2%nat); [constructor|vm_compute; reflexivity]. }
  vm_compute. reflexivity.
Qed.
