(** Shared vocabulary: option sequencing and total list helpers.
    Nothing here models a particular part of the repository. *)
From Coq Require Export List Arith ZArith NArith Lia Bool.
Export ListNotations.

(** [None] stands for "contract failure, undefined behaviour or abort" unless the
    using file says otherwise. *)
Definition bind {A B} (o : option A) (f : A -> option B) : option B :=
  match o with Some a => f a | None => None end.

Notation "'do' x <- a ; b" := (bind a (fun x => b))
  (at level 200, x pattern, a at level 100, b at level 200).

(** Replace element [i] of a list; [None] when out of bounds. *)
Fixpoint list_upd {A} (l : list A) (i : nat) (a : A) : option (list A) :=
  match l, i with
  | [], _ => None
  | _ :: t, O => Some (a :: t)
  | h :: t, S j => do t' <- list_upd t j a; Some (h :: t')
  end.

(** Apply a function to element [i]; [None] when out of bounds. *)
Definition list_modify {A} (l : list A) (i : nat) (f : A -> A) : option (list A) :=
  do a <- nth_error l i; list_upd l i (f a).

Lemma list_upd_some {A} (l : list A) i a :
  i < length l -> exists l', list_upd l i a = Some l'.
Proof.
  revert i; induction l as [|h t IH]; intros i H; cbn in *; [lia|].
  destruct i as [|j]; [eauto|].
  destruct (IH j ltac:(lia)) as [t' Ht]. rewrite Ht. cbn. eauto.
Qed.

Lemma list_upd_none {A} (l : list A) i a : length l <= i -> list_upd l i a = None.
Proof.
  revert i; induction l as [|h t IH]; intros i H; cbn in *; [reflexivity|].
  destruct i as [|j]; [lia|]. rewrite IH by lia. reflexivity.
Qed.

Lemma list_upd_length {A} (l : list A) i a l' :
  list_upd l i a = Some l' -> length l' = length l.
Proof.
  revert i l'; induction l as [|h t IH]; intros i l' H; cbn in *; [discriminate|].
  destruct i as [|j]; [inversion H; subst; reflexivity|].
  destruct (list_upd t j a) as [t'|] eqn:E; cbn in H; [|discriminate].
  inversion H; subst; cbn. f_equal. eauto.
Qed.

Lemma list_upd_nth {A} (l : list A) i a l' k :
  list_upd l i a = Some l' ->
  nth_error l' k = if Nat.eqb k i then Some a else nth_error l k.
Proof.
  revert i l' k; induction l as [|h t IH]; intros i l' k H; cbn in *; [discriminate|].
  destruct i as [|j].
  - inversion H; subst. destruct k; reflexivity.
  - destruct (list_upd t j a) as [t'|] eqn:E; cbn in H; [|discriminate].
    inversion H; subst. destruct k as [|k]; cbn; [reflexivity|].
    apply IH; assumption.
Qed.

Lemma list_upd_lt {A} (l : list A) i a l' : list_upd l i a = Some l' -> i < length l.
Proof.
  intros H. destruct (le_lt_dec (length l) i) as [Hl|Hl]; [|assumption].
  rewrite list_upd_none in H by assumption. discriminate.
Qed.

Lemma list_upd_app_mid {A} (l1 : list A) x y l2 :
  list_upd (l1 ++ x :: l2) (length l1) y = Some (l1 ++ y :: l2).
Proof.
  induction l1 as [|h t IH]; [reflexivity|].
  cbn [app length list_upd]. rewrite IH. reflexivity.
Qed.

Lemma list_modify_some {A} (l : list A) i f :
  i < length l -> exists a l', nth_error l i = Some a /\ list_upd l i (f a) = Some l'
     /\ list_modify l i f = Some l'.
Proof.
  intros H. destruct (nth_error l i) as [a|] eqn:E.
  - destruct (list_upd_some l i (f a) H) as [l' Hl].
    exists a, l'. unfold list_modify. rewrite E. cbn. auto.
  - apply nth_error_None in E. lia.
Qed.

Lemma list_modify_none {A} (l : list A) i f : length l <= i -> list_modify l i f = None.
Proof.
  intros H. unfold list_modify. destruct (nth_error l i) eqn:E; [|reflexivity].
  apply list_upd_none; assumption.
Qed.

Lemma list_modify_nth {A} (l : list A) i f l' k :
  list_modify l i f = Some l' ->
  nth_error l' k = if Nat.eqb k i then option_map f (nth_error l k) else nth_error l k.
Proof.
  unfold list_modify. destruct (nth_error l i) as [a|] eqn:E; cbn; [|discriminate].
  intros H. rewrite (list_upd_nth _ _ _ _ _ H).
  destruct (Nat.eqb_spec k i) as [->|]; [rewrite E; reflexivity|reflexivity].
Qed.

Lemma list_modify_length {A} (l : list A) i f l' :
  list_modify l i f = Some l' -> length l' = length l.
Proof.
  unfold list_modify. destruct (nth_error l i) as [a|]; cbn; [|discriminate].
  apply list_upd_length.
Qed.

Lemma nth_error_ext {A} (l l' : list A) :
  (forall i, nth_error l i = nth_error l' i) -> l = l'.
Proof.
  revert l'; induction l as [|a l IH]; intros [|b l'] H; [reflexivity| | |].
  - specialize (H 0); discriminate.
  - specialize (H 0); discriminate.
  - f_equal.
    + specialize (H 0); cbn in H; congruence.
    + apply IH. intros i. exact (H (S i)).
Qed.

Lemma nth_error_repeat {A} (a : A) n i :
  nth_error (repeat a n) i = if Nat.ltb i n then Some a else None.
Proof.
  revert i; induction n as [|n IH]; intros [|i]; cbn; try reflexivity. apply IH.
Qed.

Lemma nth_error_map' {A B} (f : A -> B) l i :
  nth_error (map f l) i = option_map f (nth_error l i).
Proof. revert i; induction l as [|a l IH]; intros [|i]; cbn; auto. Qed.

Lemma nth_error_seq s n i :
  nth_error (seq s n) i = if Nat.ltb i n then Some (s + i) else None.
Proof.
  revert s i; induction n as [|n IH]; intros s [|i]; cbn [seq nth_error]; try reflexivity.
  - cbn. f_equal. lia.
  - rewrite IH. change (S i <? S n) with (i <? n).
    destruct (i <? n); [f_equal; lia|reflexivity].
Qed.

(** Outcome of a function that may throw a C++ exception or break a contract
    (bx_expects / bx_ensures / bx_assert / bx_reach call std::terminate) or hit undefined
    behaviour. *)
Inductive outcome (A : Type) :=
| Ok (a : A)      (* normal return *)
| Throw           (* a C++ exception leaves the function *)
| Crash.          (* contract failure, abort or undefined behaviour *)
Arguments Ok {A} a.
Arguments Throw {A}.
Arguments Crash {A}.

Definition obind {A B} (o : outcome A) (f : A -> outcome B) : outcome B :=
  match o with Ok a => f a | Throw => Throw | Crash => Crash end.

Notation "'let!' x := a 'in' b" := (obind a (fun x => b))
  (at level 200, x pattern, a at level 100, b at level 200).

(** An option read as "[None] is undefined behaviour". *)
Definition of_opt {A} (o : option A) : outcome A :=
  match o with Some a => Ok a | None => Crash end.
