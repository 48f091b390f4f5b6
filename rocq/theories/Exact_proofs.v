(** The sums made when an objective function is read. *)
From Coq Require Import ZArith SpecFloat Lia.
From Verif Require Import Base Problem_model Problem_spec Parser_model Parser_spec Parser_proofs2 Main_model Main_spec Main_proofs Double_model Double_spec Double_proofs Exact_spec.
Open Scope Z_scope.

Lemma steps_times j x z : 0 <= j -> is_times j x z -> steps j x = z.
Proof.
  intros Hj [_ W]. unfold steps. rewrite W. apply Z.div_mul. pose proof (Z.pow_pos_nonneg 2 j ltac:(lia) Hj). lia.
Qed.
Lemma times_steps j x : 0 <= j -> (exists z, is_times j x z) -> is_times j x (steps j x).
Proof. intros Hj [z H]. now rewrite (steps_times j x z Hj H). Qed.

Notation total l := (fold_right Z.add 0 l).
Lemma total_app a b : total (a ++ b) = total a + total b.
Proof. induction a; cbn; lia. Qed.
Lemma total_abs {A} (f : A -> Z) l : Z.abs (total (map f l)) <= total (map (fun x => Z.abs (f x)) l).
Proof. induction l; cbn; lia. Qed.
Lemma total_nonneg {A} (f : A -> Z) l : 0 <= total (map (fun x => Z.abs (f x)) l).
Proof. induction l; cbn; lia. Qed.

Lemma fold_add_exact j : 0 <= j <= 2044 -> forall l a z, Forall (fun x => exists z, is_times j x z) l -> is_times j a z ->
  Z.abs z + total (map (fun x => Z.abs (steps j x)) l) <= 2 ^ 53 -> is_times j (fold_left f_add l a) (z + total (map (steps j) l)).
Proof.
  intros Hj. induction l as [|x l IH]; intros a z Hl Ha B; cbn [map fold_right fold_left] in *.
  - now rewrite Z.add_0_r.
  - inversion Hl as [|? ? Hx Hl']; subst. pose proof (total_nonneg (steps j) l). apply (times_steps j x) in Hx; [|lia].
    rewrite Z.add_assoc. apply IH; auto; [apply f_add_exact; auto; lia|lia].
Qed.

Section Document.
Variables (j : Z) (dn : dops double) (d : document).
Hypothesis Hd : adds_doubles dn.
Hypothesis He : exact_document j dn d.

Let C := constants (dc_objective d).
Let T := var_terms (dc_objective d).

Lemma parts : 0 <= j <= 2044 /\ Forall (fun x => exists z, is_times j x z) (map (signed_value dn) C) /\
  Forall (fun x => exists z, is_times j x z) (map (term_value dn) T) /\
  total (map (fun s => Z.abs (steps j (signed_value dn s))) C) + total (map (fun t => Z.abs (steps j (term_value dn t))) T) <= 2 ^ 53.
Proof.
  destruct He as (Hj & Hf & Hs). unfold objective_numbers in *. fold C T in Hf, Hs. apply Forall_app in Hf as [F1 F2].
  rewrite map_app, total_app, !map_map in Hs. auto.
Qed.

Lemma constant_exact : is_times j (fold_left (d_add dn) (map (signed_value dn) C) (d_zero dn)) (total (map (fun s => steps j (signed_value dn s)) C)).
Proof.
  destruct Hd as [-> ->]. destruct parts as (Hj & F1 & F2 & B).
  pose proof (total_nonneg (fun t => steps j (term_value dn t)) T).
  rewrite <- (Z.add_0_l (total _)), <- (map_map (signed_value dn) (steps j)). apply fold_add_exact; auto; [split; reflexivity|]. rewrite map_map. lia.
Qed.

Lemma group_exact nm : is_times j (sum_values dn (map (term_value dn) (terms_of nm T))) (group (fun t => steps j (term_value dn t)) T nm) /\
  Z.abs (group (fun t => steps j (term_value dn t)) T nm) <= group (fun t => Z.abs (steps j (term_value dn t))) T nm.
Proof.
  destruct parts as (Hj & F1 & F2 & B). unfold group.
  split; [|apply total_abs].
  assert (F : Forall (fun x => exists z, is_times j x z) (map (term_value dn) (terms_of nm T))).
  { apply Forall_forall. intros x Hx. apply in_map_iff in Hx as (t & <- & Ht). apply filter_In in Ht as [Ht _]. rewrite Forall_forall in F2. apply F2. now apply in_map. }
  assert (L : total (map (fun t => Z.abs (steps j (term_value dn t))) (terms_of nm T)) <= total (map (fun t => Z.abs (steps j (term_value dn t))) T)).
  { unfold terms_of. clear. induction T as [|t l IH]; cbn; [lia|]. match goal with |- context[if ?b then _ else _] => destruct b end; cbn; lia. }
  pose proof (total_nonneg (fun s => steps j (signed_value dn s)) C).
  destruct Hd as [Ha Hz]. unfold sum_values. rewrite Ha, Hz. destruct (terms_of nm T) as [|t r]; cbn [map fold_right] in *; [split; reflexivity|].
  inversion F as [|? ? Ft Fr]; subst. rewrite <- (map_map (term_value dn) (steps j)). apply fold_add_exact; auto; [now apply times_steps|]. rewrite map_map. lia.
Qed.

Lemma objective_at_written V : objective_at dn (steps j) V d = written_value j dn V d.
Proof.
  destruct parts as (Hj & _). unfold objective_at, written_value. fold C T. rewrite (steps_times j _ _ (proj1 Hj) constant_exact). f_equal.
  rewrite <- (group_sum (fun t => steps j (term_value dn t)) (fun nm => bz (V nm)) T (firsts (map t_var T)) (firsts_NoDup _)).
  - f_equal. apply map_ext. intro nm. now rewrite (steps_times j _ _ (proj1 Hj) (proj1 (group_exact nm))).
  - intros t Ht. apply firsts_In. now apply in_map.
Qed.

Lemma read_exact ty : same_objective j (objective_read (meaning dn ty d)) (p_objective (to_problem (steps j) (meaning dn ty d))) /\
  exact_range j (p_objective (to_problem (steps j) (meaning dn ty d))).
Proof.
  destruct parts as (Hj & F1 & F2 & B).
  unfold objective_read, to_problem, meaning, same_objective, exact_range, magnitude.
  cbn [rw_objective rw_quadratic rw_value p_objective o_value o_elements o_qelements do_value do_elements do_qelements map fold_right].
  fold C T. unfold objective_of. fold T. rewrite !map_map. cbn [fst snd].
  assert (N : forall nm, steps j (sum_values dn (map (term_value dn) (terms_of nm T))) = group (fun t => steps j (term_value dn t)) T nm)
    by (intro nm; apply steps_times; [lia|apply group_exact]).
  split; [split; [|split]|].
  - rewrite (steps_times j _ _ (proj1 Hj) constant_exact). apply constant_exact.
  - induction (firsts (map t_var T)) as [|nm l IH]; cbn [map]; [constructor|]. constructor; [|exact IH]. cbn [d_factor d_var o_factor o_var].
    split; [rewrite N; apply group_exact|reflexivity].
  - constructor.
  - split; [exact Hj|]. rewrite (steps_times j _ _ (proj1 Hj) constant_exact). rewrite Z.add_0_r.
    pose proof (total_abs (fun s => steps j (signed_value dn s)) C).
    assert (G : fold_right (fun e s => Z.abs (o_factor e) + s) 0
      (map (fun x => mk_oelem (steps j (sum_values dn (map (term_value dn) (terms_of x T)))) (position x (document_names d))) (firsts (map t_var T)))
      <= total (map (fun nm => group (fun t => Z.abs (steps j (term_value dn t))) T nm * 1) (firsts (map t_var T)))).
    { induction (firsts (map t_var T)) as [|nm l IH]; cbn [map fold_right o_factor]; [lia|]. rewrite N. pose proof (proj2 (group_exact nm)). lia. }
    rewrite (group_sum (fun t => Z.abs (steps j (term_value dn t))) (fun _ => 1) T (firsts (map t_var T)) (firsts_NoDup _)) in G
      by (intros t Ht; apply firsts_In; now apply in_map).
    assert (E : forall l, total (map (fun t => Z.abs (steps j (term_value dn t)) * 1) l) = total (map (fun t => Z.abs (steps j (term_value dn t))) l))
      by (intro l; f_equal; apply map_ext; intros; lia).
    rewrite E in G. cbv beta in H. eapply Z.le_trans; [apply Z.add_le_mono; [exact H|exact G]|exact B].
Qed.
End Document.

Lemma known_read cost (p : raw_problem (D := double)) :
  Parser_spec.well_formed p -> known_variables (p_objective (to_problem cost p)) (length (v_names (rw_vars p))).
Proof.
  intros W. destruct (wf_objective p W) as [_ O]. destruct (wf_quadratic p W) as [_ Q]. rewrite Forall_forall in O, Q.
  unfold to_problem. cbn [p_objective]. split; cbn [o_elements o_qelements]; intros e He; apply in_map_iff in He as (x & <- & Hx); cbn [o_var q_vara q_varb].
  - apply O. now apply in_map.
  - destruct x as [[f a] b]. exact (Q (a, b) (in_map pair_of _ _ Hx)).
Qed.
Lemma assigns_names names V nm : In nm names -> assigns (map V names) (position nm names) = V nm.
Proof.
  intros H. unfold assigns. apply nth_error_nth. rewrite nth_error_map, (position_nth nm names H). reflexivity.
Qed.
