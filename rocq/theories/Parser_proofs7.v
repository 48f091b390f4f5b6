(** Every text: the problem read is well formed. *)
From Coq Require Import Ascii String Permutation Lia.
From Verif Require Import Base Problem_model ResultIO_model Chars_spec Lexer_model Parser_model Parser_spec Parser_proofs Parser_proofs2.
Open Scope string_scope.
Open Scope list_scope.
Open Scope nat_scope.

Definition vars_wf (vs : variables) : Prop := NoDup (v_names vs) /\ length (v_values vs) = length (v_names vs).
Definition nvars (vs : variables) := length (v_names vs).
Lemma ids_mono n m l : n <= m -> ids_ok n l -> ids_ok m l.
Proof. intros H [H1 H2]. split; [ exact H1 |]. eapply Forall_impl; [ | exact H2 ]. cbn. lia. Qed.
Lemma name_index_bound nm l i : name_index nm l = Some i -> i < length l.
Proof.
  revert i; induction l as [ |x l IH ]; intros i; cbn; [ discriminate |]. destruct (text_eqb nm x); [ intros [= <-]; lia |].
  destruct (name_index nm l); cbn; [ | discriminate ]. intros [= <-]. specialize (IH n eq_refl). lia.
Qed.
Lemma name_index_none nm l : name_index nm l = None -> ~ In nm l.
Proof.
  induction l as [ |x l IH ]; cbn; [ tauto |]. destruct (text_eqb_spec nm x); [ discriminate |]. destruct (name_index nm l); [ discriminate |].
  intros _ [H|H]; [ congruence | apply (IH eq_refl H) ].
Qed.
Lemma NoDup_snoc {A} (l : list A) a : NoDup l -> ~ In a l -> NoDup (l ++ [a]).
Proof. intros H1 H2. apply (Permutation_NoDup (Permutation_app_comm [a] l)). cbn. constructor; assumption. Qed.
Lemma get_or_assign_wf vs nm id vs' : vars_wf vs -> get_or_assign_variable vs nm = (id, vs') ->
  vars_wf vs' /\ nvars vs <= nvars vs' /\ id < nvars vs'.
Proof.
  intros [H1 H2]. unfold get_or_assign_variable, get_variable. destruct (name_index nm (v_names vs)) eqn:E; intros [= <- <-].
  - split; [ split; assumption |]. split; [ lia |]. apply name_index_bound in E. exact E.
  - unfold vars_wf, nvars. cbn [v_names v_values]. rewrite !app_length. cbn [length]. split; [ split; [ apply NoDup_snoc; [ exact H1 | apply name_index_none; exact E ] | lia ] |]. lia.
Qed.

Section Wf.
Context {D : Type} (dn : dops D).
Local Notation raw_problem := (raw_problem (D := D)).

Lemma add_dterm_ids f id (l : list (D * nat)) : map snd (add_dterm dn f id l) = if existsb (Nat.eqb id) (map snd l) then map snd l else map snd l ++ [id].
Proof.
  induction l as [ |[g j] l IH ]; cbn; [ reflexivity |]. rewrite (Nat.eqb_sym j id). destruct (Nat.eqb id j); cbn; [ reflexivity |]. rewrite IH. destruct (existsb _ _); reflexivity.
Qed.
Lemma ids_snoc n l id : ids_ok n l -> id < n -> ids_ok n (if existsb (Nat.eqb id) l then l else l ++ [id]).
Proof.
  intros [H1 H2] Hi. destruct (existsb (Nat.eqb id) l) eqn:E; [ split; assumption |]. split.
  - apply NoDup_snoc; [ exact H1 |]. intros Hin. assert (existsb (Nat.eqb id) l = true) by (apply existsb_exists; exists id; split; [ exact Hin | apply Nat.eqb_refl ]). congruence.
  - apply Forall_app. split; [ exact H2 | constructor; [ exact Hi | constructor ] ].
Qed.
Lemma add_term_ids f id l : map f_var (add_term f id l) = if existsb (Nat.eqb id) (map f_var l) then map f_var l else map f_var l ++ [id].
Proof.
  induction l as [ |e l IH ]; cbn; [ reflexivity |]. rewrite (Nat.eqb_sym (f_var e) id). destruct (Nat.eqb_spec id (f_var e)); cbn; [ congruence |]. rewrite IH. destruct (existsb _ _); reflexivity.
Qed.
Lemma add_term_nonempty f id l : add_term f id l <> [].
Proof. destruct l; cbn; [ discriminate |]. destruct (Nat.eqb _ _); discriminate. Qed.
Definition quad_ok (n : nat) (l : list (D * nat * nat)) : Prop :=
  ForallOrdPairs (fun x y => ~ same_unordered x y) (map pair_of l) /\ Forall (fun x => fst x < n /\ snd x < n) (map pair_of l).
Lemma same_pair_spec (e : D * nat * nat) a b : same_pair e a b = true <-> same_unordered (pair_of e) (a, b).
Proof.
  destruct e as [[f x] y]. unfold same_pair, same_unordered. cbn [pair_of fst snd]. rewrite orb_true_iff, !andb_true_iff, !Nat.eqb_eq.
  split; intros [H|H]; [ left | right | left | right ]; [ destruct H as [-> ->]; reflexivity | destruct H as [-> ->]; reflexivity | injection H; auto | injection H; auto ].
Qed.
Lemma add_qterm_pairs f a b (l : list (D * nat * nat)) :
  map pair_of (add_qterm dn f a b l) = if existsb (fun e => same_pair e a b) l then map pair_of l else map pair_of l ++ [(a, b)].
Proof.
  induction l as [ |e l IH ]; cbn [add_qterm map existsb]; [ reflexivity |]. destruct (same_pair e a b); cbn [orb].
  - destruct e as [[g x] y]. reflexivity.
  - cbn [map]. rewrite IH. destruct (existsb _ l); reflexivity.
Qed.
Lemma FOP_snoc {A} (R : A -> A -> Prop) l a : ForallOrdPairs R l -> Forall (fun x => R x a) l -> ForallOrdPairs R (l ++ [a]).
Proof.
  induction l as [ |x l IH ]; intros H1 H2; cbn; [ constructor; constructor |]. inversion H1; inversion H2; subst. constructor; [ | apply IH; assumption ].
  apply Forall_app. split; [ assumption | constructor; [ assumption | constructor ] ].
Qed.
Lemma quad_add n l f a b : quad_ok n l -> a < n -> b < n -> quad_ok n (add_qterm dn f a b l).
Proof.
  intros [H1 H2] Ha Hb. unfold quad_ok. rewrite add_qterm_pairs. destruct (existsb (fun e => same_pair e a b) l) eqn:E; [ split; assumption |]. split.
  - apply FOP_snoc; [ exact H1 |]. apply Forall_forall. intros x Hx Hs. apply in_map_iff in Hx. destruct Hx as [e [<- He]].
    assert (existsb (fun e => same_pair e a b) l = true) by (apply existsb_exists; exists e; split; [ exact He | apply same_pair_spec; exact Hs ]). congruence.
  - apply Forall_app. split; [ exact H2 | constructor; [ split; assumption | constructor ] ].
Qed.
Lemma quad_mono n m (l : list (D * nat * nat)) : n <= m -> quad_ok n l -> quad_ok m l.
Proof. intros H [H1 H2]. split; [ exact H1 |]. eapply Forall_impl; [ | exact H2 ]. cbn. lia. Qed.

Definition csts (p : raw_problem) := rw_equal p ++ rw_greater p ++ rw_less p.
Definition cst_wf (n : nat) (c : constraint) : Prop := c_elements c <> [] /\ ids_ok n (map f_var (c_elements c)).
(** [k] constraints so far *)
Record inv (k : nat) (p : raw_problem) : Prop := {
  i_vars : vars_wf (rw_vars p);
  i_obj : ids_ok (nvars (rw_vars p)) (map snd (rw_objective p));
  i_quad : quad_ok (nvars (rw_vars p)) (rw_quadratic p);
  i_csts : Forall (cst_wf (nvars (rw_vars p))) (csts p);
  i_ids : Permutation (map c_id (csts p)) (map Z.of_nat (seq 0 k)) }.
Lemma csts_mono n m l : n <= m -> Forall (cst_wf n) l -> Forall (cst_wf m) l.
Proof. intros H. apply Forall_impl. intros c [H1 H2]. split; [ exact H1 | eapply ids_mono; eauto ]. Qed.

Definition good {A} (r : pres (A * raw_problem)) (P : raw_problem -> Prop) : Prop := match r with P_ok (_, p) => P p | _ => True end.
Lemma with_objective_inv k p o q v vs : inv k p -> vars_wf vs -> nvars (rw_vars p) <= nvars vs -> ids_ok (nvars vs) (map snd o) -> quad_ok (nvars vs) q -> inv k (with_objective p o q v vs).
Proof.
  intros [H1 H2 H3 H4 H5] Hv Hn Ho Hq. split; cbn [with_objective rw_vars rw_objective rw_quadratic csts]; auto. eapply csts_mono; [ exact Hn | exact H4 ].
Qed.
Lemma quadratic_step_inv k sign b p : inv k p -> good (quadratic_step dn sign b p) (inv k).
Proof.
  intros Hp. unfold quadratic_step. destruct (read_quadratic3 _ _ _ _) as [[[[f at_] n]|]| | |]; cbn [pbind or_error good]; try exact I.
  destruct (pop n b) as [b1|]; cbn [or_abort pbind]; [ | exact I ]. destruct (text_eqb (first b1) (str "*")).
  - destruct (read_name _) as [nm2|]; cbn [or_error pbind]; [ | exact I ].
    destruct (get_or_assign_variable (rw_vars p) _) as [id1 vs1] eqn:E1. destruct (get_or_assign_variable vs1 nm2) as [id2 vs2] eqn:E2.
    destruct (pop 2 b1) as [b2|]; cbn [or_abort pbind]; [ | exact I ]. cbn [good].
    destruct (get_or_assign_wf _ _ _ _ (i_vars _ _ Hp) E1) as [V1 [N1 I1]]. destruct (get_or_assign_wf _ _ _ _ V1 E2) as [V2 [N2 I2]].
    apply with_objective_inv; auto; [ lia | eapply ids_mono; [ | apply (i_obj _ _ Hp) ]; lia |]. apply quad_add; [ eapply quad_mono; [ | apply (i_quad _ _ Hp) ]; lia | lia | lia ].
  - destruct (_ || _); [ | exact Hp ]. destruct (if _ && _ then pop 2 b1 else pop 1 b1) as [b2|]; cbn [or_abort pbind]; [ | exact I ].
    destruct (get_or_assign_variable (rw_vars p) _) as [id1 vs1] eqn:E1. cbn [good]. destruct (get_or_assign_wf _ _ _ _ (i_vars _ _ Hp) E1) as [V1 [N1 I1]].
    apply with_objective_inv; auto; [ eapply ids_mono; [ | apply (i_obj _ _ Hp) ]; lia |]. apply quad_add; [ eapply quad_mono; [ | apply (i_quad _ _ Hp) ]; lia | lia | lia ].
Qed.
Lemma quadratic_loop_inv k sign : forall fuel b p, inv k p -> good (quadratic_loop dn fuel sign b p) (inv k).
Proof.
  induction fuel as [ |fuel IH ]; intros b p Hp; cbn [quadratic_loop]; (destruct (first b); [ exact Hp |]); (destruct (text_eqb _ _); [ exact Hp |]); [ exact I |].
  pose proof (quadratic_step_inv k sign b p Hp) as H. destruct (quadratic_step dn sign b p) as [[b1 p1]| | |]; cbn [pbind]; try exact I. apply IH, H.
Qed.
Lemma read_quadratic_inv k fuel sign b p : inv k p -> good (read_quadratic dn fuel sign b p) (inv k).
Proof.
  intros Hp. unfold read_quadratic. destruct (negb _); [ exact I |]. destruct (pop_front b) as [b1|]; cbn [or_abort pbind]; [ | exact I ].
  pose proof (quadratic_loop_inv k sign fuel b1 p Hp) as H. destruct (quadratic_loop dn fuel sign b1 p) as [[b2 p2]| | |]; cbn [pbind]; try exact I.
  destruct (pop_front b2) as [b3|]; cbn [or_abort pbind]; [ | exact I ]. destruct (_ && _).
  - destruct (pop 2 b3); cbn [or_abort pbind]; [ exact H | exact I ].
  - destruct (text_eqb _ _); [ | exact I ]. destruct (pop 1 b3); cbn [or_abort pbind]; [ exact H | exact I ].
Qed.
Lemma append_inv k f nm p : inv k p -> inv k (append_to_objective dn f nm p).
Proof.
  intros Hp. unfold append_to_objective. destruct nm as [ |c nm ].
  - apply with_objective_inv; auto; [ apply (i_vars _ _ Hp) | apply (i_obj _ _ Hp) | apply (i_quad _ _ Hp) ].
  - destruct (get_or_assign_variable (rw_vars p) (c :: nm)) as [id vs] eqn:E. destruct (get_or_assign_wf _ _ _ _ (i_vars _ _ Hp) E) as [V1 [N1 I1]].
    apply with_objective_inv; auto; [ | eapply quad_mono; [ | apply (i_quad _ _ Hp) ]; lia ]. rewrite add_dterm_ids. apply ids_snoc; [ eapply ids_mono; [ | apply (i_obj _ _ Hp) ]; lia | exact I1 ].
Qed.
Lemma objective_step_inv k fuel b p : inv k p -> good (objective_step dn fuel b p) (inv k).
Proof.
  intros Hp. unfold objective_step. destruct (starts_with_quadratic _ _).
  - destruct (pop_front b) as [b1|]; cbn [or_abort pbind]; (destruct (text_eqb (first b) (str "-")); [ | destruct (text_eqb (first b) (str "+")) ]); try exact I; apply read_quadratic_inv, Hp.
  - destruct (read_function_element _ _ _ _) as [[[[f nm] n]|]| | |]; cbn [pbind or_error]; try exact I.
    destruct (pop n b); cbn [or_abort pbind]; [ | exact I ]. apply append_inv, Hp.
Qed.
Lemma objective_loop_inv k : forall fuel b p, inv k p -> good (objective_loop dn fuel b p) (inv k).
Proof.
  induction fuel as [ |fuel IH ]; intros b p Hp; cbn [objective_loop]; (destruct (is_keyword _); [ exact Hp |]); [ exact I |].
  pose proof (objective_step_inv k fuel b p Hp) as H. destruct (objective_step dn fuel b p) as [[b1 p1]| | |]; cbn [pbind]; try exact I. apply IH, H.
Qed.

Definition good3 (r : pres (sbuf * variables * list felem)) (n : nat) : Prop :=
  match r with P_ok (_, vs, els) => vars_wf vs /\ n <= nvars vs /\ els <> [] /\ ids_ok (nvars vs) (map f_var els) | _ => True end.
Lemma constraint_element_inv b vs els : vars_wf vs -> ids_ok (nvars vs) (map f_var els) -> good3 (constraint_element dn b vs els) (nvars vs).
Proof.
  intros Hv Hi. unfold constraint_element. destruct (read_function_element _ _ _ _) as [[[[f nm] n]|]| | |]; cbn [pbind or_error]; try exact I.
  destruct (get_or_assign_variable vs nm) as [id vs1] eqn:E. destruct (get_or_assign_wf _ _ _ _ Hv E) as [V1 [N1 I1]].
  destruct (d_int dn f); cbn [or_abort pbind]; [ | exact I ]. destruct (pop n b); cbn [or_abort pbind]; [ | exact I ]. cbn [good3].
  split; [ exact V1 |]. split; [ exact N1 |]. split; [ apply add_term_nonempty |]. rewrite add_term_ids. apply ids_snoc; [ eapply ids_mono; [ exact N1 | exact Hi ] | exact I1 ].
Qed.
Lemma elements_loop_inv : forall fuel b vs els, vars_wf vs -> els <> [] -> ids_ok (nvars vs) (map f_var els) -> good3 (elements_loop dn fuel b vs els) (nvars vs).
Proof.
  induction fuel as [ |fuel IH ]; intros b vs els Hv Hne Hi; cbn [elements_loop];
    (destruct (first b); [ cbn; auto |]); (destruct (starts_with_operator _); [ cbn; auto |]); [ exact I |].
  pose proof (constraint_element_inv b vs els Hv Hi) as H. destruct (constraint_element dn b vs els) as [[[b1 vs1] els1]| | |]; cbn [pbind]; try exact I.
  destruct H as [V1 [N1 [E1 I1]]]. specialize (IH b1 vs1 els1 V1 E1 I1). destruct (elements_loop dn fuel b1 vs1 els1) as [[[b2 vs2] els2]| | |]; auto.
  cbn in *. destruct IH as [V2 [N2 [E2 I2]]]. repeat split; auto; [ apply V2 | apply V2 | lia | apply I2 | apply I2 ].
Qed.
Lemma seq_snoc n : seq 0 (S n) = seq 0 n ++ [n].
Proof. rewrite seq_S. reflexivity. Qed.
Lemma add_constraint_inv k op c p : inv k p -> c_id c = Z.of_nat k -> cst_wf (nvars (rw_vars p)) c -> inv (S k) (add_constraint op c p).
Proof.
  intros [H1 H2 H3 H4 H5] Hid Hc.
  assert (HP : Permutation (csts (add_constraint op c p)) (c :: csts p)).
  { unfold csts. destruct op; cbn [add_constraint rw_equal rw_greater rw_less].
    - rewrite <- app_assoc. cbn [app]. symmetry. apply Permutation_middle.
    - rewrite <- (app_assoc (rw_greater p)). cbn [app]. rewrite app_assoc. rewrite (app_assoc _ (rw_greater p) (rw_less p)). symmetry. apply Permutation_middle.
    - rewrite !app_assoc. rewrite <- app_assoc. symmetry. change (c :: (rw_equal p ++ rw_greater p) ++ rw_less p) with ([c] ++ (rw_equal p ++ rw_greater p) ++ rw_less p).
      rewrite (app_assoc (rw_equal p ++ rw_greater p)). apply Permutation_app_comm. }
  split.
  - destruct op; exact H1.
  - destruct op; exact H2.
  - destruct op; exact H3.
  - assert (Hv : rw_vars (add_constraint op c p) = rw_vars p) by (destruct op; reflexivity). rewrite Hv. eapply Permutation_Forall; [ symmetry; exact HP |]. constructor; assumption.
  - rewrite (Permutation_map _ HP). cbn [map]. rewrite H5, Hid, seq_snoc, map_app. cbn [map]. apply (Permutation_app_comm [Z.of_nat k]).
Qed.
Lemma with_vars_inv k p vs : inv k p -> vars_wf vs -> nvars (rw_vars p) <= nvars vs -> inv k (with_vars p vs).
Proof.
  intros [H1 H2 H3 H4 H5] Hv Hn. split; cbn [with_vars rw_vars rw_objective rw_quadratic]; auto; [ eapply ids_mono; [ exact Hn | exact H2 ] | eapply quad_mono; [ exact Hn | exact H3 ] | eapply csts_mono; [ exact Hn | exact H4 ] ].
Qed.
Lemma constraint_step_inv k fuel b p : inv k p -> good (constraint_step dn fuel k b p) (inv (S k)).
Proof.
  intros Hp. unfold constraint_step. destruct (read_label b) as [[label b1]| | |]; cbn [pbind]; try exact I.
  pose proof (constraint_element_inv b1 (rw_vars p) [] (i_vars _ _ Hp)) as H1. specialize (H1 ltac:(split; constructor)).
  destruct (constraint_element dn b1 (rw_vars p) []) as [[[b2 vs2] els2]| | |]; cbn [pbind]; try exact I. destruct H1 as [V1 [N1 [E1 I1]]].
  pose proof (elements_loop_inv fuel b2 vs2 els2 V1 E1 I1) as H2. destruct (elements_loop dn fuel b2 vs2 els2) as [[[b3 vs3] els3]| | |]; cbn [pbind]; try exact I. destruct H2 as [V2 [N2 [E2 I2]]].
  destruct (read_operator _ _) as [[op n]|]; cbn [or_error pbind]; [ | exact I ]. destruct (pop n b3) as [b4|]; cbn [or_abort pbind]; [ | exact I ].
  destruct (read_real2 _ _ _) as [[v m]| | |]; cbn [pbind]; try exact I. destruct (d_int dn v) as [z|]; cbn [or_abort pbind]; [ | exact I ].
  destruct (pop m b4); cbn [or_abort pbind]; [ | exact I ]. cbn [good]. apply add_constraint_inv; [ apply with_vars_inv; [ exact Hp | exact V2 | lia ] | reflexivity |].
  split; assumption.
Qed.
Lemma constraints_loop_inv : forall fuel k b p, inv k p -> good (constraints_loop dn fuel k b p) (fun p => exists k', inv k' p).
Proof.
  induction fuel as [ |fuel IH ]; intros k b p Hp; cbn [constraints_loop]; (destruct (first b); [ cbn; eauto |]); (destruct (is_keyword _); [ cbn; eauto |]); [ exact I |].
  pose proof (constraint_step_inv k fuel b p Hp) as H. destruct (constraint_step dn fuel k b p) as [[b1 p1]| | |]; cbn [pbind]; try exact I. apply IH, H.
Qed.

Definition same_vars (vs vs' : variables) : Prop := vars_wf vs' /\ v_names vs' = v_names vs.
Lemma set_value_wf vs i f vs' : vars_wf vs -> set_value vs i f = P_ok vs' -> same_vars vs vs'.
Proof.
  intros [H1 H2]. unfold set_value, list_modify. destruct (nth_error (v_values vs) i); cbn [bind or_abort pbind]; [ | discriminate ].
  destruct (list_upd (v_values vs) i _) eqn:E; cbn [or_abort pbind]; [ | discriminate ]. intros [= <-]. unfold same_vars, vars_wf. cbn [v_names v_values].
  apply list_upd_length in E. split; [ split; [ exact H1 | congruence ] | reflexivity ].
Qed.
Lemma set_boolean_wf nm vs vs' : vars_wf vs -> set_boolean_variable nm vs = P_ok vs' -> same_vars vs vs'.
Proof. unfold set_boolean_variable. intros H. destruct (get_variable vs nm); cbn [or_error pbind]; [ apply set_value_wf, H | discriminate ]. Qed.
Lemma set_integer_wf nm vs vs' : vars_wf vs -> set_integer_variable nm vs = P_ok vs' -> same_vars vs vs'.
Proof. unfold set_integer_variable. intros H. destruct (get_variable vs nm); cbn [or_error pbind]; [ apply set_value_wf, H | discriminate ]. Qed.
Lemma set_bound_wf bd vs vs' : vars_wf vs -> set_bound_variable dn bd vs = P_ok vs' -> same_vars vs vs'.
Proof.
  unfold set_bound_variable. intros H. destruct (get_variable vs _); cbn [or_error pbind]; [ | discriminate ].
  destruct (bound_min dn _); cbn [pbind]; try discriminate. destruct (bound_max dn _); cbn [pbind]; try discriminate. apply set_value_wf, H.
Qed.
Lemma same_trans a b c : same_vars a b -> same_vars b c -> same_vars a c.
Proof. intros [H1 H2] [H3 H4]. split; [ exact H3 | congruence ]. Qed.
Lemma names_loop_wf set : (forall nm vs vs', vars_wf vs -> set nm vs = P_ok vs' -> same_vars vs vs') ->
  forall fuel b vs b' vs', vars_wf vs -> names_loop set fuel b vs = P_ok (b', vs') -> same_vars vs vs'.
Proof.
  intros Hset. induction fuel as [ |fuel IH ]; intros b vs b' vs' Hv; cbn [names_loop]; (destruct (is_keyword _); [ intros [= <- <-]; split; [ exact Hv | reflexivity ] |]); [ discriminate |].
  destruct (set (first b) vs) as [vs1| | |] eqn:E; cbn [pbind]; try discriminate. destruct (pop_front b) as [b1|]; cbn [or_abort pbind]; [ | discriminate ].
  intros H. pose proof (Hset _ _ _ Hv E) as H1. eapply same_trans; [ exact H1 |]. eapply IH; [ apply H1 | exact H ].
Qed.
Lemma bounds_loop_wf : forall fuel b vs b' vs', vars_wf vs -> bounds_loop dn fuel b vs = P_ok (b', vs') -> same_vars vs vs'.
Proof.
  induction fuel as [ |fuel IH ]; intros b vs b' vs' Hv; cbn [bounds_loop]; (destruct (is_keyword _); [ intros [= <- <-]; split; [ exact Hv | reflexivity ] |]); [ discriminate |].
  destruct (read_bound dn _) as [[bd|]| | |]; cbn [pbind or_error]; try discriminate. destruct (set_bound_variable dn bd vs) as [vs1| | |] eqn:E; cbn [pbind]; try discriminate.
  destruct (pop _ b) as [b1|]; cbn [or_abort pbind]; [ | discriminate ]. intros H. pose proof (set_bound_wf _ _ _ Hv E) as H1. eapply same_trans; [ exact H1 |]. eapply IH; [ apply H1 | exact H ].
Qed.
Lemma section_inv k n loop b p : inv k p -> (forall b vs b' vs', vars_wf vs -> loop b vs = P_ok (b', vs') -> same_vars vs vs') -> good (section_ n loop b p) (inv k).
Proof.
  intros Hp Hl. unfold section_. destruct n as [ |n ]; [ exact Hp |]. destruct (pop (S n) b) as [b1|]; cbn [or_abort pbind]; [ | exact I ].
  destruct (loop b1 (rw_vars p)) as [[b2 vs2]| | |] eqn:E; cbn [pbind]; try exact I. destruct (Hl _ _ _ _ (i_vars _ _ Hp) E) as [H1 H2].
  cbn. apply with_vars_inv; [ exact Hp | exact H1 |]. unfold nvars. rewrite H2. lia.
Qed.
Lemma inv_well_formed k p : inv k p -> well_formed p.
Proof.
  intros [[H1 H1'] H2 H3 H4 H5]. split; auto.
  - intros c Hc. rewrite Forall_forall in H4. apply (H4 c Hc).
  - fold (csts p). assert (length (csts p) = k). { apply Permutation_length in H5. rewrite !map_length, seq_length in H5. exact H5. } rewrite H. exact H5.
Qed.
Theorem make_problem_well_formed t fuel p : make_problem dn fuel t = P_ok p -> well_formed p.
Proof.
  unfold make_problem. destruct (make_buffer t) as [b|]; cbn [or_abort pbind]; [ | discriminate ]. unfold parse.
  destruct (read_objective_type _) as [ty|]; cbn [or_error pbind]; [ | discriminate ]. destruct (pop_front b) as [b1|]; cbn [or_abort pbind]; [ | discriminate ].
  destruct (pop_read _ b1) as [b2| | |]; cbn [pbind]; try discriminate.
  assert (H0 : inv 0 (set_type ty (empty_problem dn))). { split; cbn; repeat constructor. }
  pose proof (objective_loop_inv 0 fuel b2 _ H0) as H3. destruct (objective_loop dn fuel b2 _) as [[b3 p3]| | |]; cbn [pbind]; try discriminate. cbn in H3.
  assert (H4 : good (match read_subject_to (first b3) (second b3) (third b3) with O => P_ok (b3, p3) | n => let? b := or_abort (pop n b3) in constraints_loop dn fuel 0 b p3 end) (fun p => exists k, inv k p)).
  { destruct (read_subject_to _ _ _) as [ |n ]; [ cbn; eauto |]. destruct (pop (S n) b3); cbn [or_abort pbind]; [ | exact I ]. apply constraints_loop_inv, H3. }
  match goal with |- pbind ?r _ = _ -> _ => destruct r as [[b4 p4]| | |] end; cbn [pbind]; try discriminate. destruct H4 as [k H4].
  pose proof (section_inv k (read_bounds (first b4) (second b4)) (bounds_loop dn fuel) b4 p4 H4 (bounds_loop_wf fuel)) as H5.
  match goal with |- pbind ?r _ = _ -> _ => destruct r as [[b5 p5]| | |] end; cbn [pbind]; try discriminate. cbn in H5.
  pose proof (section_inv k (read_binary (first b5) (second b5)) (names_loop set_boolean_variable fuel) b5 p5 H5 (names_loop_wf _ set_boolean_wf fuel)) as H6.
  match goal with |- pbind ?r _ = _ -> _ => destruct r as [[b6 p6]| | |] end; cbn [pbind]; try discriminate. cbn in H6.
  pose proof (section_inv k (read_general (first b6) (second b6)) (names_loop set_integer_variable fuel) b6 p6 H6 (names_loop_wf _ set_integer_wf fuel)) as H7.
  match goal with |- pbind ?r _ = _ -> _ => destruct r as [[b7 p7]| | |] end; cbn [pbind]; try discriminate. cbn in H7.
  destruct (read_end _ _) as [ |n ]; [ discriminate |]. destruct (pop (S n) b7) as [b8|]; cbn [or_abort pbind]; [ | discriminate ]. destruct (first b8); [ | discriminate ].
  intros [= <-]. eapply inv_well_formed, H7.
Qed.
End Wf.
