(** Property theorems C25, C27, C28 and C57. *)
From Coq Require Import String Ascii.
From Verif Require Import Base Problem_model Problem_spec Utils_model Utils_spec Utils_proofs.
Open Scope Z_scope.

(** C25. Whatever is stored later, each returned view reads the string that was stored.
    [node] is the size of a node: 1024 * 1024 in the code. *)
Theorem C25_views_are_stable :
  forall (node : nat) (strings : list (list ascii)),
  Forall (fun s => List.length s <= node)%nat strings ->
  exists b views, sb_append_all node sb_new strings = Some (b, views) /\
    Forall2 (fun s v => sb_read b v = Some s) strings views.
Proof.
  intros node l H.
  destruct (append_all_ok node l sb_new ltac:(split; [constructor|]; split; [cbn; lia|auto]) H) as (b & vs & Ha & _ & Hf & _).
  eauto.
Qed.
Print Assumptions C25_views_are_stable.
Example C25_ex :
  match sb_append_all 5 sb_new (map str ["abc"; "de"; "fghi"; "j"]%string) with
  | Some (b, vs) => map (sb_read b) vs = map (fun s => Some (str s)) ["abc"; "de"; "fghi"; "j"]%string /\
                    List.length (sb_nodes b) = 2%nat
  | None => False
  end.
Proof. vm_compute. split; reflexivity. Qed.
(** A string longer than a node is written out of the node (undefined behaviour): the limit on
    the lengths is needed. *)
Theorem C25_length_limit_needed :
  forall (node : nat) (s : list ascii), (node < List.length s)%nat -> sb_append node sb_new s = None.
Proof. intros node s H. apply append_too_long; [|assumption]. split; [constructor|]. split; [cbn; lia|auto]. Qed.
Print Assumptions C25_length_limit_needed.

(** C27. A cast gives the same number when the target type can hold it and throws otherwise. *)
Theorem C27_numeric_cast_exact :
  forall (target source : int_type) (z : Z),
  0 <= t_digits target -> 0 <= t_digits source ->
  representable (t_signed source) (t_digits source) z ->
  (representable (t_signed target) (t_digits target) z -> numeric_cast target source z = Ok z) /\
  (~ representable (t_signed target) (t_digits target) z -> numeric_cast target source z = Throw).
Proof.
  intros target source z Ht Hs Hz. pose proof (castable_exact target source z Ht Hs Hz) as Hc. unfold numeric_cast. split; intros H.
  - rewrite (proj2 Hc H). f_equal. apply static_cast_id; assumption.
  - destruct (is_numeric_castable target source z); [|reflexivity]. exfalso. apply H. apply Hc. reflexivity.
Qed.
Print Assumptions C27_numeric_cast_exact.
Definition int8 := mk_int_type true 7.
Definition int32 := mk_int_type true 31.
Definition uint64 := mk_int_type false 64.
Example C27_ex : numeric_cast int8 int32 127 = Ok 127 /\ numeric_cast int8 int32 128 = Throw /\
  numeric_cast int8 int32 (-128) = Ok (-128) /\ numeric_cast int32 uint64 2147483648 = Throw /\
  numeric_cast uint64 int32 (-1) = Throw /\ numeric_cast uint64 int32 5 = Ok 5 /\ representable true 31 128.
Proof. repeat split; try (vm_compute; reflexivity); vm_compute; congruence. Qed.

(** C28. The objective of every assignment is between the two bounds... *)
Theorem C28_objective_in_range :
  forall (o : objective) (x : assignment),
  fst (compute_min_max_objective_function o) <= objective_value x o <= snd (compute_min_max_objective_function o).
Proof.
  intros o x. unfold compute_min_max_objective_function, objective_value.
  pose proof (linear_bounds x (o_elements o) (o_value o, o_value o) (o_value o) ltac:(cbn; lia)) as H. cbv zeta in H.
  exact (quad_bounds x (o_qelements o) _ _ H).
Qed.
Print Assumptions C28_objective_in_range.
(** ... and both are reached when the objective is linear with distinct variables. *)
Theorem C28_range_reached :
  forall o : objective, o_qelements o = [] -> NoDup (map o_var (o_elements o)) ->
  (exists x, objective_value x o = fst (compute_min_max_objective_function o)) /\
  (exists x, objective_value x o = snd (compute_min_max_objective_function o)).
Proof.
  intros o Hq Hn. unfold compute_min_max_objective_function, objective_value. rewrite Hq. cbn [fold_left quad_value]. split.
  - destruct (linear_reached_min (o_elements o) (o_value o, o_value o) Hn) as [x Hx]. exists x. rewrite Hx. cbn [fst]. lia.
  - destruct (linear_reached_max (o_elements o) (o_value o, o_value o) Hn) as [x Hx]. exists x. rewrite Hx. cbn [snd]. lia.
Qed.
Print Assumptions C28_range_reached.
Example C28_ex : compute_min_max_objective_function
   (mk_objective [mk_oelem 3 0; mk_oelem (-2) 1] [mk_qelem (-5) 0 1] 10) = (3, 13) /\
   NoDup (map o_var [mk_oelem 3 0; mk_oelem (-2) 1]).
Proof. split; [vm_compute; reflexivity|]. repeat constructor; cbn; lia. Qed.

(** C57. trim removes exactly the blanks around a string. *)
Theorem C57_trim_exact : forall s : list ascii, trimmed s (trim s).
Proof.
  intros s. unfold trim, trimmed. destruct (right_trim_spec s) as [[-> Hw]|(a & c & b & Hs & Hb & Hc & ->)].
  - cbn. split; [exists s, []; rewrite app_nil_r; repeat split; [assumption|constructor]|].
    split; intros c t' H; [discriminate|destruct t'; discriminate].
  - destruct (left_trim_spec (a ++ [c])) as [[_ Hw]|(a' & c' & b' & Hs' & Ha' & Hc' & ->)].
    { exfalso. apply Hc. rewrite Forall_forall in Hw. apply Hw. apply in_or_app. right. left. reflexivity. }
    split; [|split].
    + exists a', b. split; [|split; assumption]. rewrite app_assoc, <- Hs', <- app_assoc. exact Hs.
    + intros d t' H. inversion H; subst. assumption.
    + intros d t' H. assert (Hd : a ++ [c] = (a' ++ t') ++ [d]) by (rewrite Hs', H, app_assoc; reflexivity).
      apply app_inj_tail in Hd. destruct Hd as [_ <-]. assumption.
Qed.
Print Assumptions C57_trim_exact.
Example C57_ex : trim (str "  a b  ") = str "a b" /\ trim (str "   ") = [].
Proof. split; vm_compute; reflexivity. Qed.
